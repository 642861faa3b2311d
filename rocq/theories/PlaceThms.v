(** Headings, places on the slide, mind maps and quadrant charts. *)
From Coq Require Import String Ascii List Bool Arith NArith ZArith Permutation Lia.
From Verif Require Import Str Num ColorModel TableModel ShapeModel ConnectorModel ValidSpec ValidProofs RepairText FlowModel FlowSpec FlowText FlowDraw FlowThms DiagramModel DiagramSpec DiagramCommon DiagramTime GraphEr PlaceSpec.
Import ListNotations.
Open Scope nat_scope.
Open Scope string_scope.

(** ** Headings *)
Definition type_of (title : string) : mermaid_type :=
  match List.find (fun t => String.eqb (diagram_title t) title) [MFlowchart; MSequence; MPie; MGantt; MClass; MState; MEr; MMindmap; MTimeline; MJourney; MQuadrant; MGit] with Some t => t | None => MUnknown end.
Lemma detected title h body code : announces title h -> lines code = h :: body -> detect_type code = type_of title.
Proof.
  intros (word & I & rest & E) L. unfold detect_type, first_line. rewrite L, E. cbn [kinds In] in I.
  repeat (destruct I as [I|I]; [injection I as <- <-; cbn -[type_of]; rewrite ?orb_true_r; reflexivity|]). destruct I.
Qed.
Lemma place_title o code : snd (place o code) = diagram_title (detect_type code).
Proof. reflexivity. Qed.
Lemma titled o title h body code : announces title h -> lines code = h :: body -> snd (place o code) = title.
Proof.
  intros A L. rewrite place_title, (detected title h body code A L). destruct A as (word & I & _). cbn [kinds In] in I. repeat (destruct I as [I|I]; [injection I as <- <-; reflexivity|]). destruct I.
Qed.
Lemma draw_by o t code : detect_type code = t -> draw o code = match t with
  | MFlowchart => flow_drawing (o_wordy o) (o_order o) code
  | MPie => from_shapes (pie_shapes (o_num o) (o_f64 o) (o_percent o) code)
  | MSequence => from_shapes (seq_shapes code) | MGantt => from_shapes (gantt_shapes code) | MClass => class_drawing code | MState => state_drawing code
  | MEr => er_drawing (o_alpha o) (o_entities o) code | MMindmap => from_shapes (mind_shapes (o_ring1 o) (o_ring2 o) code) | MTimeline => from_shapes (time_shapes code)
  | MJourney => from_shapes (journey_shapes code) | MQuadrant => from_shapes (quad_shapes (o_spot o) code) | MGit => from_shapes (git_shapes code)
  | MUnknown => from_shapes [with_text ("Diagram: " ++ match lines code with [] => "Unknown" | l :: _ => l end)
      (with_line "757575" 1 (with_fill "F5F5F5" (shape_new KRectangle 1000000 2000000 7000000 3000000)))]
  end.
Proof. intros <-. unfold draw, create_diagram_elements. destruct (detect_type code); reflexivity. Qed.
Lemma same_drawing o title h1 h2 body c1 c2 : announces title h1 -> announces title h2 -> title <> "Flowchart" -> lines c1 = h1 :: body -> lines c2 = h2 :: body -> draw o c1 = draw o c2.
Proof.
  intros A1 A2 NF L1 L2. rewrite (draw_by o _ c1 (detected _ _ _ _ A1 L1)), (draw_by o _ c2 (detected _ _ _ _ A2 L2)).
  assert (R : rows c1 = rows c2) by (unfold rows; now rewrite L1, L2).
  destruct A1 as (word & I & _). cbn [kinds In] in I. repeat (destruct I as [I|I]; [injection I as <- <-; try congruence|]); [..|destruct I];
    cbv [type_of find diagram_title String.eqb Ascii.eqb Bool.eqb]; unfold seq_shapes, pie_shapes, gantt_shapes, class_drawing, state_drawing, er_drawing, mind_shapes, time_shapes, journey_shapes, quad_shapes, git_shapes; rewrite ?R, ?L1, ?L2; reflexivity.
Qed.
Lemma unknown_box o h body code : lines code = h :: body -> forallb (fun w => negb (starts_with w (lowercase (trim h)))) beginnings = true ->
  exists s, place o code = ([s], [], "Diagram") /\ sh_text s = Some ("Diagram: " ++ h).
Proof.
  intros L B. assert (D : detect_type code = MUnknown).
  { unfold detect_type, first_line. rewrite L. set (x := lowercase (trim h)) in *. clearbody x. rewrite forallb_forall in B. assert (N : forall w, In w beginnings -> starts_with w x = false) by (intros w I; apply negb_true_iff; now apply B).
    assert (W : forall w v, starts_with w x = false -> starts_with (w ++ v) x = false). { intros w v Q. destruct (starts_with (w ++ v) x) eqn:Z; [|reflexivity]. apply starts_with_iff in Z as (y & ->). rewrite sapp_assoc, starts_with_app in Q. discriminate. }
    rewrite (N "graph"), (N "flowchart"), (N "sequence"), (N "pie"), (N "gantt"), (N "class"), (N "state"), (N "er"), (N "mindmap"), (N "timeline"), (N "journey"), (N "quadrant"), (N "git") by (cbn; tauto).
    pose proof (W "sequence" "diagram" (N "sequence" ltac:(cbn; tauto))) as W1. pose proof (W "class" "diagram" (N "class" ltac:(cbn; tauto))) as W2. pose proof (W "state" "diagram" (N "state" ltac:(cbn; tauto))) as W3. pose proof (W "er" "diagram" (N "er" ltac:(cbn; tauto))) as W4.
    pose proof (W "quadrant" "chart" (N "quadrant" ltac:(cbn; tauto))) as W5. pose proof (W "git" "graph" (N "git" ltac:(cbn; tauto))) as W6.
    change (starts_with "sequencediagram" x = false) in W1. change (starts_with "classdiagram" x = false) in W2. change (starts_with "statediagram" x = false) in W3. change (starts_with "erdiagram" x = false) in W4. change (starts_with "quadrantchart" x = false) in W5. change (starts_with "gitgraph" x = false) in W6.
    now rewrite W1, W2, W3, W4, W5, W6. }
  unfold place, diagram. fold (draw o code). rewrite (draw_by o _ code D), D, L. eexists. split; reflexivity.
Qed.

(** ** Moving *)
Lemma i32_small z : (-2000000000 <= z <= 2100000000)%Z -> i32 z = z.
Proof. intros H. unfold i32. rewrite Z.mod_small by lia. lia. Qed.
Lemma shift_exact d v : (d <= 10000000)%N -> (v <= 2000000000)%N -> shift (Z.of_N d) v = (v + d)%N.
Proof. intros D V. unfold shift. rewrite (i32_small (Z.of_N v)), i32_small by lia. lia. Qed.
Lemma offset_small b : exists dx dy, offsets b = (Z.of_N dx, Z.of_N dy) /\ (dx <= 4572000 /\ dy <= 4029000)%N.
Proof.
  destruct b as [b|]; [|exists 0%N, 0%N; split; [reflexivity|lia]]. unfold offsets. exists ((9144000 - b_w b) / 2 - b_x b)%N, (1200000 + (5658000 - b_h b) / 2 - b_y b)%N.
  assert (A : ((9144000 - b_w b) / 2 <= 4572000)%N) by (apply N.div_le_upper_bound; lia). assert (B : ((5658000 - b_h b) / 2 <= 2829000)%N) by (apply N.div_le_upper_bound; lia).
  change (sub 6858000 1200000) with 5658000%N. rewrite add_exact by lia. rewrite !i32_small by lia. split; [reflexivity|lia].
Qed.
Definition move_by (o : outside) (code : string) (dx dy : N) : Prop :=
  place o code = (map (mv dx dy) (d_shapes (draw o code)), map (mvc dx dy) (d_connectors (draw o code)), snd (place o code)).
Lemma moved_by o code dx dy : small (d_shapes (draw o code)) (d_connectors (draw o code)) -> offsets (d_bounds (draw o code)) = (Z.of_N dx, Z.of_N dy) -> (dx <= 4572000 /\ dy <= 4029000)%N -> move_by o code dx dy.
Proof.
  intros [S C] E B. unfold move_by, place at 1, diagram. fold (draw o code). rewrite E. rewrite place_title. f_equal. f_equal; apply map_ext_in.
  - intros s I. rewrite Forall_forall in S. destruct (S s I) as [A1 A2]. unfold right_of, bottom_of in *. unfold move_shape, mv. cbn [fst snd]. rewrite !shift_exact by lia. reflexivity.
  - intros c I. rewrite Forall_forall in C. destruct (C c I) as (A1 & A2 & A3 & A4). unfold move_connector, mvc. cbn [fst snd]. rewrite !shift_exact by lia. reflexivity.
Qed.
Lemma moved o code : small (d_shapes (draw o code)) (d_connectors (draw o code)) ->
  exists dx dy, place o code = (map (mv dx dy) (d_shapes (draw o code)), map (mvc dx dy) (d_connectors (draw o code)), snd (place o code)) /\ (dx <= 4572000 /\ dy <= 4029000)%N.
Proof. intros H. destruct (offset_small (d_bounds (draw o code))) as (dx & dy & E & B). exists dx, dy. split; [now apply moved_by|exact B]. Qed.
Lemma bounds_fold l : Forall (fun s => right_of s <= 2000000000 /\ bottom_of s <= 2000000000)%N l -> forall a b c d,
  fold_left (fun '(x0, y0, x1, y1) '(x, y, w, h) => (N.min x0 x, N.min y0 y, N.max x1 (add x w), N.max y1 (add y h))) (map (fun s => (sh_x s, sh_y s, sh_w s, sh_h s)) l) (a, b, c, d)
  = (fold_left N.min (map sh_x l) a, fold_left N.min (map sh_y l) b, fold_left N.max (map right_of l) c, fold_left N.max (map bottom_of l) d).
Proof.
  induction l as [|s l IH]; intros F a b c d; [reflexivity|]. inversion_clear F as [|? ? [R B] F']. cbn [map fold_left]. rewrite IH by exact F'. unfold right_of, bottom_of in *. now rewrite !add_exact by lia.
Qed.
Lemma least (f : shape -> N) l lo : (exists s, In s l /\ f s = lo) -> (forall s, In s l -> (lo <= f s)%N) -> forall a, (lo <= a)%N -> fold_left N.min (map f l) a = lo.
Proof.
  intros (s & I & E) M. assert (X : forall l, (forall s, In s l -> (lo <= f s)%N) -> forall a, (lo <= a)%N -> (lo <= fold_left N.min (map f l) a <= a)%N).
  { clear. induction l as [|s l IH]; intros M a A; [cbn; lia|]. cbn [map fold_left]. destruct (IH (fun s I => M s (or_intror I)) (N.min a (f s))) as [B C]; [specialize (M s (or_introl eq_refl)); lia|]. lia. }
  intros a A. revert a A I. induction l as [|t l IH]; intros a A I; [destruct I|]. cbn [map fold_left]. destruct I as [->|I].
  - destruct (X l (fun s I => M s (or_intror I)) (N.min a (f s))) as [B C]; [rewrite E; lia|]. lia.
  - apply IH; [intros z Z; apply M; now right| |exact I]. specialize (M t (or_introl eq_refl)). lia.
Qed.
Lemma greatest (f : shape -> N) l hi : (exists s, In s l /\ f s = hi) -> (forall s, In s l -> (f s <= hi)%N) -> forall a, (a <= hi)%N -> fold_left N.max (map f l) a = hi.
Proof.
  intros (s & I & E) M. assert (X : forall l, (forall s, In s l -> (f s <= hi)%N) -> forall a, (a <= hi)%N -> (a <= fold_left N.max (map f l) a <= hi)%N).
  { clear. induction l as [|s l IH]; intros M a A; [cbn; lia|]. cbn [map fold_left]. destruct (IH (fun s I => M s (or_intror I)) (N.max a (f s))) as [B C]; [specialize (M s (or_introl eq_refl)); lia|]. lia. }
  intros a A. revert a A I. induction l as [|t l IH]; intros a A I; [destruct I|]. cbn [map fold_left]. destruct I as [->|I].
  - destruct (X l (fun s I => M s (or_intror I)) (N.max a (f s))) as [B C]; [rewrite E; lia|]. lia.
  - apply IH; [intros z Z; apply M; now right| |exact I]. specialize (M t (or_introl eq_refl)). lia.
Qed.
Lemma own_bounds o code : snd (place o code) <> "Flowchart" -> d_bounds (draw o code) = from_elements (map (fun s => (sh_x s, sh_y s, sh_w s, sh_h s)) (d_shapes (draw o code))).
Proof.
  rewrite place_title. intros N. rewrite (draw_by o _ code eq_refl). destruct (detect_type code); try reflexivity; [now destruct (N eq_refl)| |].
  - unfold state_drawing. destruct (fold_left put_move _ _) as [a cns]. reflexivity.
  - unfold er_drawing. destruct (fold_left put_er _ _) as [a cns]. reflexivity.
Qed.
Lemma spans_mv near far l lo hi d dx dy : (forall s, near (mv dx dy s) = near s + d)%N -> (forall s, far (mv dx dy s) = far s + d)%N -> spans near far l lo hi -> spans near far (map (mv dx dy) l) (lo + d)%N (hi + d)%N.
Proof.
  intros N F ((s & I & E) & M & (t & J & E') & M'). split; [exists (mv dx dy s); split; [now apply in_map|rewrite N; lia]|]. split; [intros z Z; apply in_map_iff in Z as (y & <- & Y); rewrite N; specialize (M y Y); lia|].
  split; [exists (mv dx dy t); split; [now apply in_map|rewrite F; lia]|]. intros z Z. apply in_map_iff in Z as (y & <- & Y). rewrite F. specialize (M' y Y). lia.
Qed.
Lemma half_sum W w l : (l + (l + w) <= W)%N -> (l <= (W - w) / 2 /\ W - 1 <= (W - w) / 2 + ((W - w) / 2 + w) <= W)%N.
Proof. intros H. pose proof (N.div_mod (W - w) 2 ltac:(lia)) as E. pose proof (N.mod_lt (W - w) 2 ltac:(lia)). set (q := ((W - w) / 2)%N) in *. set (r := ((W - w) mod 2)%N) in *. clearbody q r. lia. Qed.
Lemma centred_all o code l r t b : snd (place o code) <> "Flowchart" -> small (d_shapes (draw o code)) (d_connectors (draw o code)) ->
  spans sh_x right_of (d_shapes (draw o code)) l r -> spans sh_y bottom_of (d_shapes (draw o code)) t b ->
  exists l' r' t' b', spans sh_x right_of (fst (fst (place o code))) l' r' /\ spans sh_y bottom_of (fst (fst (place o code))) t' b' /\ (r' - l' = r - l /\ b' - t' = b - t)%N
  /\ ((l + r <= slide_width)%N -> centred 0 slide_width l' r')
  /\ ((b - t <= slide_height - title_height)%N -> (t + b <= title_height + slide_height)%N -> centred title_height slide_height t' b').
Proof.
  intros NF SM X Y. pose proof (own_bounds o code NF) as OB. pose proof SM as [S _]. assert (NE : d_shapes (draw o code) <> []) by (destruct X as ((s & I & _) & _); intros Q; rewrite Q in I; destruct I).
  destruct X as (X1 & X2 & X3 & X4) eqn:EX. destruct Y as (Y1 & Y2 & Y3 & Y4) eqn:EY. clear EX EY.
  assert (LB : (l <= r /\ r <= 2000000000 /\ t <= b /\ b <= 2000000000)%N).
  { rewrite Forall_forall in S. destruct X3 as (s & I & E). destruct Y3 as (s' & I' & E'). pose proof (X2 s I). pose proof (Y2 s' I'). pose proof (S s I) as [Q _]. pose proof (S s' I') as [_ Q']. unfold right_of, bottom_of in *. lia. }
  assert (EB : d_bounds (draw o code) = Some (Bounds l t (r - l) (b - t))).
  { rewrite OB. unfold from_elements. destruct (map _ (d_shapes (draw o code))) eqn:EM; [destruct (d_shapes (draw o code)); [congruence|discriminate]|]. rewrite <- EM. rewrite bounds_fold by exact S.
    rewrite (least sh_x _ l X1 X2), (least sh_y _ t Y1 Y2), (greatest right_of _ r X3 X4), (greatest bottom_of _ b Y3 Y4) by (unfold u32_max; lia). rewrite !sub_exact by lia. reflexivity. }
  set (dx := ((9144000 - (r - l)) / 2 - l)%N). set (dy := (1200000 + (5658000 - (b - t)) / 2 - t)%N).
  assert (A : ((9144000 - (r - l)) / 2 <= 4572000)%N) by (apply N.div_le_upper_bound; lia). assert (B : ((5658000 - (b - t)) / 2 <= 2829000)%N) by (apply N.div_le_upper_bound; lia).
  assert (MB : move_by o code dx dy).
  { apply moved_by; [exact SM| |unfold dx, dy; lia]. rewrite EB. unfold offsets. cbn [b_x b_y b_w b_h]. change (sub 6858000 1200000) with 5658000%N. rewrite (add_exact 1200000) by lia. rewrite !i32_small by lia. reflexivity. }
  unfold move_by in MB. rewrite MB. cbn [fst]. exists (l + dx)%N, (r + dx)%N, (t + dy)%N, (b + dy)%N. split; [apply (spans_mv sh_x right_of); [reflexivity|intros s; unfold right_of, mv; cbn; lia|repeat split; assumption]|].
  split; [apply (spans_mv sh_y bottom_of); [reflexivity|intros s; unfold bottom_of, mv; cbn; lia|repeat split; assumption]|]. split; [lia|]. unfold centred, slide_width, slide_height, title_height. split.
  - intros Q. destruct (half_sum 9144000 (r - l) l) as [H1 H2]; [lia|]. unfold dx. lia.
  - intros Q1 Q2. destruct (half_sum 5658000 (b - t) (t - 1200000)) as [H1 H2]; [lia|]. unfold dy. lia.
Qed.

(** ** Mind maps *)
Lemma trim_start_blanks n s : trim_start_by is_ws (blanks n ++ s) = trim_start_by is_ws s.
Proof. induction n as [|n IH]; [reflexivity|]. change (blanks (S n) ++ s) with (String " " (blanks n ++ s)). cbn [trim_start_by]. change (is_ws " ") with true. cbv iota. exact IH. Qed.
Lemma blanks_rev n : srev (blanks n) = blanks n.
Proof.
  assert (X : forall n, blanks n ++ s1 " " = String " " (blanks n)). { clear. induction n as [|n IH]; [reflexivity|]. cbn [blanks]. change (String " " (blanks n) ++ s1 " ") with (String " " (blanks n ++ s1 " ")). now rewrite IH. }
  induction n as [|n IH]; [reflexivity|]. cbn [blanks]. rewrite srev_cons, IH. apply X.
Qed.
Lemma blanks_length n s : String.length (blanks n ++ s) = n + String.length s.
Proof. induction n as [|n IH]; [reflexivity|]. change (blanks (S n) ++ s) with (String " " (blanks n ++ s)). cbn [String.length]. now rewrite IH. Qed.
Lemma head_kept p c s : p c = false -> trim_start_by p (String c s) = String c s.
Proof. intros H. cbn. now rewrite H. Qed.
Lemma trim_blanks n k s : solid s -> trim (blanks n ++ s ++ blanks k) = s /\ trim_start_by is_ws (blanks n ++ s ++ blanks k) = s ++ blanks k.
Proof.
  intros [(c & x & E & C) (d & y & E' & D)]. assert (T : trim_start_by is_ws (blanks n ++ s ++ blanks k) = s ++ blanks k).
  { rewrite trim_start_blanks. rewrite E. change (String c x ++ blanks k) with (String c (x ++ blanks k)). now apply head_kept. }
  split; [|exact T]. unfold trim. rewrite T. unfold trim_end_by. rewrite srev_sapp, blanks_rev, trim_start_blanks. rewrite E', srev_sapp. change (srev (s1 d) ++ srev y) with (String d (srev y)). rewrite head_kept by exact D.
  change (String d (srev y)) with (srev (s1 d) ++ srev y). rewrite <- srev_sapp. apply srev_involutive.
Qed.
Lemma trim_start_off p a s : sforall p a = true -> trim_start_by p (a ++ s) = trim_start_by p s.
Proof. induction a as [|c a IH]; [reflexivity|]. cbn [sforall]. intros H. apply andb_prop in H as [C H]. change (String c a ++ s) with (String c (a ++ s)). cbn [trim_start_by]. rewrite C. now apply IH. Qed.
Lemma trim_by_off p a t b : sforall p a = true -> sforall p b = true -> sforall (fun c => negb (p c)) t = true -> t <> "" -> trim_by p (a ++ t ++ b) = t.
Proof.
  intros A B T NE. assert (K : forall t r, t <> "" -> sforall (fun c => negb (p c)) t = true -> trim_start_by p (t ++ r) = t ++ r).
  { intros [|c u] r N H; [congruence|]. cbn [sforall] in H. apply andb_prop in H as [H _]. apply negb_true_iff in H. change (String c u ++ r) with (String c (u ++ r)). now apply head_kept. }
  unfold trim_by. rewrite trim_start_off by exact A. rewrite K by assumption. unfold trim_end_by. rewrite srev_sapp. rewrite trim_start_off by (now rewrite sforall_srev).
  assert (NR : srev t <> ""). { intros Q. apply NE. rewrite <- (srev_involutive t), Q. reflexivity. }
  pose proof (K (srev t) "" NR ltac:(now rewrite sforall_srev)) as Z. rewrite !sapp_nil_r in Z. rewrite Z. apply srev_involutive.
Qed.
Definition brackets (c : ascii) : bool := one_of ["("; ")"; "["; "]"]%char c.
Lemma mind_parts t : mind_text t = true -> solid t /\ sforall (fun c => negb (brackets c)) t = true /\ t <> "" /\ starts_with "%%" t = false /\ starts_with "-" t = false /\ starts_with "+" t = false /\ starts_with "*" t = false.
Proof.
  unfold mind_text. intros H. apply andb_prop in H as [H W]. apply andb_prop in H as [T F]. split; [now apply tidy_solid|]. split; [exact F|]. split; [intros ->; discriminate|].
  repeat split; apply (not_starts _ _ t W); cbn; auto.
Qed.
Lemma dressed_solid dr t : solid t -> solid (dressed dr t).
Proof.
  intros S. destruct dr; cbn [dressed]; [exact S| | |].
  - split; [exists "("%char, (t ++ ")"); split; reflexivity|exists ")"%char, ("(" ++ t); split; [now rewrite sapp_assoc|reflexivity]].
  - split; [exists "["%char, (t ++ "]"); split; reflexivity|exists "]"%char, ("[" ++ t); split; [now rewrite sapp_assoc|reflexivity]].
  - split; [exists "("%char, ("(" ++ t ++ "))"); split; reflexivity|exists ")"%char, ("((" ++ t ++ ")"); split; [now rewrite !sapp_assoc|reflexivity]].
Qed.
Lemma row_read m n k dr t : mind_text t = true -> mind_line m (blanks n ++ dressed dr t ++ blanks k) =
  if Nat.eqb n 0 || (String.eqb (mi_root m) "" && Nat.leb n 4) then (if String.eqb (mi_root m) "" then Mind t (mi_level1 m) (mi_level2 m) else m)
  else if Nat.leb n 8 then Mind (mi_root m) (mi_level1 m ++ [t])%list (mi_level2 m) else Mind (mi_root m) (mi_level1 m) (mi_level2 m ++ [((length (mi_level1 m) - 1)%nat, t)])%list.
Proof.
  intros H. destruct (mind_parts t H) as (S & F & NE & P1 & P2 & P3 & P4). pose proof (dressed_solid dr t S) as DS. destruct (trim_blanks n k _ DS) as [T TS]. unfold mind_line. rewrite T, TS, blanks_length.
  replace (n + String.length (dressed dr t ++ blanks k) - String.length (dressed dr t ++ blanks k)) with n by lia.
  assert (D0 : String.eqb (dressed dr t) "" = false). { destruct DS as [(c & x & -> & _) _]. reflexivity. }
  assert (DP : starts_with "%%" (dressed dr t) = false) by (destruct dr; [exact P1|reflexivity|reflexivity|reflexivity]).
  assert (DB : trim_start_by (one_of ["-"; "+"; "*"]%char) (dressed dr t) = dressed dr t).
  { destruct dr; [|reflexivity|reflexivity|reflexivity]. cbn [dressed]. destruct t as [|c t']; [reflexivity|]. apply head_kept. unfold one_of. cbn [existsb]. rewrite orb_false_r.
    assert (Q : forall d, starts_with (s1 d) (String c t') = false -> Ascii.eqb c d = false). { intros d Z. cbn in Z. rewrite andb_true_r in Z. now rewrite Ascii.eqb_sym. }
    rewrite (Q "-"%char), (Q "+"%char), (Q "*"%char) by assumption. reflexivity. }
  rewrite D0, DP, DB. cbn [orb]. rewrite (trim_solid _ DS).
  assert (TT : trim_by (one_of ["("; ")"; "["; "]"]%char) (dressed dr t) = t).
  { destruct dr; cbn [dressed].
    - pose proof (trim_by_off (one_of ["("; ")"; "["; "]"]%char) "" t "" eq_refl eq_refl F NE) as Z. rewrite sapp_nil_r in Z. exact Z.
    - apply (trim_by_off _ "(" t ")"); [reflexivity|reflexivity|exact F|exact NE].
    - apply (trim_by_off _ "[" t "]"); [reflexivity|reflexivity|exact F|exact NE].
    - apply (trim_by_off _ "((" t "))"); [reflexivity|reflexivity|exact F|exact NE]. }
  rewrite TT. destruct (String.eqb_spec t ""); [congruence|]. reflexivity.
Qed.
Lemma remarks_off l : forall m, fold_left mind_line l m = fold_left mind_line (List.filter (fun x => negb (remark x)) l) m.
Proof.
  induction l as [|x l IH]; intros m; [reflexivity|]. cbn [fold_left List.filter]. destruct (remark x) eqn:R; cbn [negb]; [|cbn [fold_left]; apply IH]. unfold remark in R. unfold mind_line at 2. rewrite R. apply IH.
Qed.
Definition row_line (r : nat * string) (l : string) : Prop := exists n k dr, indented (fst r) n /\ l = blanks n ++ dressed dr (snd r) ++ blanks k.
Lemma leaves_read root ls : root <> "" -> forallb mind_text ls = true -> forall l l1 l2, Forall2 row_line (map (fun x => (2, x)) ls) l ->
  fold_left mind_line l (Mind root l1 l2) = Mind root l1 (l2 ++ map (fun x => ((length l1 - 1)%nat, x)) ls).
Proof.
  intros NE. induction ls as [|t ls IH]; intros H l l1 l2 F; inversion_clear F as [|? y ? ? (n & k & dr & I & ->) F']; [cbn; now rewrite app_nil_r|]. cbn [forallb] in H. apply andb_prop in H as [T H]. cbn [fold_left fst snd] in *. rewrite row_read by exact T. cbn [mi_root mi_level1 mi_level2].
  destruct (String.eqb_spec root ""); [congruence|]. cbn [indented andb] in *. rewrite orb_false_r. destruct (Nat.eqb_spec n 0); [lia|]. destruct (Nat.leb_spec n 8); [lia|]. rewrite IH by assumption. cbn [map]. rewrite <- app_assoc. reflexivity.
Qed.
Definition leaves_from (s : nat) (bs : list (string * list string)) : list (nat * string) := flat_map (fun kb => map (fun l => (fst kb, l)) (snd (snd kb))) (combine (seq s (length bs)) bs).
Lemma branches_read root bs : root <> "" -> forallb (fun b => mind_text (fst b) && forallb mind_text (snd b)) bs = true -> forall l l1 l2, Forall2 row_line (flat_map (fun b => (1, fst b) :: map (fun x => (2, x)) (snd b)) bs) l ->
  fold_left mind_line l (Mind root l1 l2) = Mind root (l1 ++ map fst bs) (l2 ++ leaves_from (length l1) bs).
Proof.
  intros NE. induction bs as [|[b ls] bs IH]; intros H l l1 l2 F.
  - inversion_clear F. cbn. now rewrite !app_nil_r.
  - cbn [forallb fst snd] in H. apply andb_prop in H as [T H]. apply andb_prop in T as [T TL]. cbn [flat_map fst snd] in F. cbn [app] in F. inversion_clear F as [|? y ? l' (n & k & dr & I & ->) F'].
    apply Forall2_app_inv_l in F' as (u & v & Fu & Fv & ->). cbn [fold_left fst snd] in *. rewrite row_read by exact T. cbn [mi_root mi_level1 mi_level2]. destruct (String.eqb_spec root ""); [congruence|]. cbn [indented andb] in *. rewrite orb_false_r.
    destruct (Nat.eqb_spec n 0); [lia|]. destruct (Nat.leb_spec n 8); [|lia]. rewrite fold_left_app, (leaves_read root ls NE TL u _ _ Fu), (IH H v _ _ Fv). rewrite app_length. cbn [length map fst]. rewrite <- !app_assoc. cbn [app].
    unfold leaves_from at 2. cbn [length seq combine flat_map fst snd]. fold (leaves_from (S (length l1)) bs). replace (length l1 + 1 - 1) with (length l1) by lia. replace (length l1 + 1) with (S (length l1)) by lia. reflexivity.
Qed.
Definition mind_ok (d : mind_doc) : bool := mind_text (fst d) && forallb (fun b => mind_text (fst b) && forallb mind_text (snd b)) (snd d).
Lemma mind_read d rest : mind_ok d = true -> Forall2 row_line (mind_rows d) (List.filter (fun l => negb (remark l)) rest) -> fold_left mind_line rest (Mind "" [] []) = Mind (fst d) (branches_of d) (leaves_of d).
Proof.
  intros H F. apply andb_prop in H as [T H]. rewrite remarks_off. unfold mind_rows in F. inversion F as [|? y ? l (n & k & dr & I & ->) F' E1 E2]. cbn [fold_left fst snd] in *. rewrite row_read by exact T. cbn [mi_root mi_level1 mi_level2 indented] in *. change (String.eqb "" "") with true. cbn [andb].
  destruct (Nat.leb_spec n 4); [|lia]. rewrite orb_true_r. apply (branches_read (fst d) (snd d)); [destruct (mind_parts _ T) as (_ & _ & N & _); exact N|exact H|exact F'].
Qed.
Record drop := Drop { dr_t : shape_type; dr_x : N; dr_y : N; dr_w : N; dr_h : N; dr_f : option string; dr_l : option string; dr_s : string }.
Definition dbox (d : drop) : shape := let bg := shape_new (dr_t d) (dr_x d) (dr_y d) (dr_w d) (dr_h d) in let bg := match dr_f d with Some c => with_fill c bg | None => bg end in match dr_l d with Some c => with_line c 12700 bg | None => bg end.
Definition dlab (d : drop) : shape := with_text (dr_s d) (shape_new KRectangle (add (dr_x d) 50000) (add (dr_y d) 50000) (sub (dr_w d) 100000) (sub (dr_h d) 100000)).
Lemma dbox_geo d : sh_x (dbox d) = dr_x d /\ sh_y (dbox d) = dr_y d /\ sh_w (dbox d) = dr_w d /\ sh_h (dbox d) = dr_h d.
Proof. unfold dbox. destruct (dr_f d), (dr_l d); repeat split. Qed.
Lemma drop_inside d : (100000 <= dr_w d <= 1000000000)%N -> (100000 <= dr_h d <= 1000000000)%N -> (dr_x d <= 2000000000)%N -> (dr_y d <= 2000000000)%N -> inside (dbox d) (dlab d).
Proof.
  intros W H X Y. destruct (dbox_geo d) as (E1 & E2 & E3 & E4). unfold inside, right_of, bottom_of. rewrite E1, E2, E3, E4. unfold dlab. cbn [sh_x sh_y sh_w sh_h with_text shape_new]. rewrite !add_exact, !sub_exact by lia. lia.
Qed.
Definition d_root (t : string) : drop := Drop KEllipse 3000000 2700000 2000000 600000 (Some "3949AB") (Some "1A237E") t.
Definition d_branch (ring : nat -> nat -> N * N) (n : nat) (kt : nat * string) : drop :=
  Drop KRoundedRectangle (fst (ring_place (ring n (fst kt)))) (snd (ring_place (ring n (fst kt)))) 1500000 400000 (Some (nth (fst kt mod 6)%nat ["4472C4"; "ED7D31"; "70AD47"; "FFC000"; "5B9BD5"; "9E480E"] "")) None (snd kt).
Definition d_leaf (ring : nat -> nat -> N * N) (n : nat) (kt : nat * string) : drop :=
  Drop KRoundedRectangle (fst (ring_place (ring n (fst kt)))) (snd (ring_place (ring n (fst kt)))) 1500000 400000 (Some "E8EAF6") (Some "3949AB") (snd kt).
Definition near_rings (o : outside) : Prop := forall n k, (fst (o_ring1 o n k) <= 1000000000 /\ snd (o_ring1 o n k) <= 1000000000 /\ fst (o_ring2 o n k) <= 1000000000 /\ snd (o_ring2 o n k) <= 1000000000)%N.
Lemma ring_exact p : (fst p <= 1000000000)%N -> (snd p <= 1000000000)%N -> ring_place p = (3250000 + fst p, 2800000 + snd p)%N.
Proof. intros A B. unfold ring_place. rewrite (add_exact 4000000), (add_exact 3000000) by lia. change (1500000 / 2)%N with 750000%N. change (400000 / 2)%N with 200000%N. rewrite !sub_exact by lia. f_equal; lia. Qed.
Lemma flat_map_app' {A B} (f : A -> list B) l1 l2 : flat_map f (l1 ++ l2) = (flat_map f l1 ++ flat_map f l2)%list.
Proof. apply flat_map_app. Qed.
Lemma mind_all o d code : near_rings o -> mind_ok d = true -> writes_mind d code ->
  d_connectors (draw o code) = [] /\ exists boxes labels, mind_drawn (o_ring1 o) (o_ring2 o) d (d_shapes (draw o code)) boxes labels.
Proof.
  intros NR H (rest & L & F). assert (D : detect_type code = MMindmap) by (unfold detect_type, first_line; rewrite L; reflexivity). rewrite (draw_by o _ code D). cbn [from_shapes from_shapes_and_connectors d_connectors d_shapes]. split; [reflexivity|].
  unfold mind_shapes. rewrite L. cbn [tl]. rewrite (mind_read d rest H F). cbn [mi_root mi_level1 mi_level2]. unfold branches_of at 1. rewrite map_length. set (n := length (snd d)).
  set (items := (d_root (fst d) :: map (d_branch (o_ring1 o) n) (numbered (branches_of d)) ++ map (d_leaf (o_ring2 o) n) (leaves_of d))%list).
  assert (LK : Forall (fun l => fst l < n) (leaves_of d)).
  { apply Forall_forall. intros l I. unfold leaves_of in I. apply in_flat_map in I as ([k b] & I & J). apply in_map_iff in J as (x & <- & _). cbn [fst]. apply in_combine_l in I. apply in_seq in I. unfold n. lia. }
  match goal with |- exists b l, mind_drawn _ _ _ ?X b l => assert (E : X = flat_map (fun x => [dbox x; dlab x]) items) end.
  { unfold items. cbn [flat_map app]. rewrite flat_map_app', !flat_map_map. match goal with |- (?R ++ ?B ++ ?C)%list = _ => change R with [dbox (d_root (fst d)); dlab (d_root (fst d))] end. cbn [app]. apply f_equal. apply f_equal. f_equal.
    - unfold branches_of. apply flat_map_ext. intros [k t]. unfold d_branch, dbox, dlab. cbn [fst snd dr_t dr_x dr_y dr_w dr_h dr_f dr_l dr_s]. destruct (ring_place (o_ring1 o n k)) as [x y]. reflexivity.
    - replace (length (branches_of d)) with n by (symmetry; apply map_length). clear -LK. induction LK as [|[k t] l K _ IH]; [reflexivity|]. cbn [flat_map]. rewrite IH. f_equal. cbn [fst] in K. apply Nat.ltb_lt in K. cbv beta iota. rewrite K. unfold d_leaf, dbox, dlab. cbn [fst snd dr_t dr_x dr_y dr_w dr_h dr_f dr_l dr_s]. destruct (ring_place (o_ring2 o n k)) as [x y]. reflexivity. }
  rewrite E. exists (map dbox items), (map dlab items).
  assert (R1 : forall k t, dr_x (d_branch (o_ring1 o) n (k, t)) = (3250000 + fst (o_ring1 o n k))%N /\ dr_y (d_branch (o_ring1 o) n (k, t)) = (2800000 + snd (o_ring1 o n k))%N) by (intros k t; destruct (NR n k) as (A & B & _); unfold d_branch; cbn [dr_x dr_y fst snd]; rewrite ring_exact by assumption; auto).
  assert (R2 : forall k t, dr_x (d_leaf (o_ring2 o) n (k, t)) = (3250000 + fst (o_ring2 o n k))%N /\ dr_y (d_leaf (o_ring2 o) n (k, t)) = (2800000 + snd (o_ring2 o n k))%N) by (intros k t; destruct (NR n k) as (_ & _ & A & B); unfold d_leaf; cbn [dr_x dr_y fst snd]; rewrite ring_exact by assumption; auto).
  constructor.
  - apply flat2.
  - unfold items. rewrite map_map. cbn [map]. rewrite !map_app, !map_map. f_equal. f_equal.
    apply (num_map (fun t => Some t) (branches_of d)).
  - apply both_map. unfold items. constructor; [apply drop_inside; cbn [dr_w dr_h dr_x dr_y d_root]; lia|]. apply Forall_app. split; apply Forall_forall; intros x I; apply in_map_iff in I as ([k t] & <- & _).
    + destruct (R1 k t) as [E1 E2]. destruct (NR n k) as (A & B & _). apply drop_inside; [cbn [dr_w d_branch]; lia|cbn [dr_h d_branch]; lia|rewrite E1; lia|rewrite E2; lia].
    + destruct (R2 k t) as [E1 E2]. destruct (NR n k) as (_ & _ & A & B). apply drop_inside; [cbn [dr_w d_leaf]; lia|cbn [dr_h d_leaf]; lia|rewrite E1; lia|rewrite E2; lia].
  - exists (dbox (d_root (fst d))), (map dbox (map (d_branch (o_ring1 o) n) (numbered (branches_of d)))), (map dbox (map (d_leaf (o_ring2 o) n) (leaves_of d))). split; [unfold items; cbn [map]; now rewrite map_app|]. split; [split; reflexivity|]. fold n. split.
    + rewrite map_map. assert (SE : seq 0 n = map fst (numbered (branches_of d))).
      { unfold numbered, branches_of. rewrite map_length. fold n. clear. assert (X : forall (A B : Type) (u : list A) (v : list B), length u = length v -> map fst (combine u v) = u). { intros A B u. induction u as [|a u IH]; intros [|b v] Q; try discriminate; [reflexivity|]. cbn. rewrite IH; [reflexivity|]. cbn in Q. congruence. } rewrite X; [reflexivity|]. rewrite seq_length, map_length. reflexivity. }
      rewrite SE. apply both_map. apply Forall_forall. intros [k t] _. cbn [fst]. destruct (R1 k t) as [E1 E2]. destruct (dbox_geo (d_branch (o_ring1 o) n (k, t))) as (G1 & G2 & G3 & G4). unfold at_place, middle, centre. rewrite G1, G2, G3, G4, E1, E2. cbn [dr_w dr_h d_branch]. change (1500000 / 2)%N with 750000%N. change (400000 / 2)%N with 200000%N. lia.
    + rewrite map_map. rewrite <- (map_id (leaves_of d)) at 1. apply both_map. apply Forall_forall. intros [k t] _. cbn [fst]. destruct (R2 k t) as [E1 E2]. destruct (dbox_geo (d_leaf (o_ring2 o) n (k, t))) as (G1 & G2 & G3 & G4). unfold at_place, middle, centre. rewrite G1, G2, G3, G4, E1, E2. cbn [dr_w dr_h d_leaf]. change (1500000 / 2)%N with 750000%N. change (400000 / 2)%N with 200000%N. lia.
Qed.

(** ** Quadrant charts *)
Definition quad_effect (spot : string -> string -> N * N) (it : quad_item) : list (string * (N * N)) := match it with Point n x y => [(n, spot x y)] | QAside _ => [] end.
Lemma quad_read spot it : quad_ok it = true -> quad_line spot (quad_text it) = quad_effect spot it.
Proof.
  destruct it as [n x y|t]; cbn [quad_ok quad_text quad_effect]; intros H.
  - apply andb_prop in H as [H Fy]. apply andb_prop in H as [H Fx]. apply andb_prop in H as [H Ty]. apply andb_prop in H as [H Tx]. apply andb_prop in H as [H W]. apply andb_prop in H as [H E]. apply andb_prop in H as [Tn Fn]. apply negb_true_iff in E.
    unfold quad_line. assert (NE : String.eqb (n ++ ":[" ++ x ++ ", " ++ y ++ "]") "" = false) by (destruct (tidy_solid _ Tn) as [(c & z & -> & _) _]; reflexivity). rewrite NE.
    change (":[" ++ x ++ ", " ++ y ++ "]") with (String ":" ("[" ++ x ++ ", " ++ y ++ "]")).
    rewrite (not_start "title" n ":"), (not_start "x-axis" n ":"), (not_start "y-axis" n ":"), (not_start "quadrant-" n ":") by (reflexivity || (apply (not_starts _ _ n W); cbn; auto)). cbn [orb].
    replace (n ++ String ":" ("[" ++ x ++ ", " ++ y ++ "]")) with ((n ++ ":") ++ "[" ++ (x ++ ", " ++ y ++ "]")) by (now rewrite sapp_assoc). rewrite (split_after "[" "") by (rewrite sforall_app, (not_free _ _ "[" Fn eq_refl); reflexivity).
    replace (x ++ ", " ++ y ++ "]") with ((x ++ ", " ++ y) ++ "]") by (now rewrite !sapp_assoc). rewrite (split_end "]" "") by (rewrite !sforall_app, (not_free _ _ "]" Fx eq_refl), (not_free _ _ "]" Fy eq_refl); reflexivity).
    change (", " ++ y) with (String "," (" " ++ y)). rewrite split_char_app.
    assert (CF : forall z, without [","; "]"]%char z = true -> sforall (fun c => negb (Ascii.eqb c ",")) z = true). { intros z. apply sforall_weaken. intros c Q. apply negb_true_iff in Q. apply orb_false_elim in Q as [Q _]. now rewrite Q. }
    rewrite (split_char_none "," x) by now apply CF. rewrite (split_char_none "," (" " ++ y)) by (rewrite sforall_app, (CF y Fy); reflexivity). cbn [app]. rewrite (tidy_trim x Tx), (tidy_before y Ty).
    assert (TN : trim_end_by (Ascii.eqb ":") (n ++ ":") = n).
    { unfold trim_end_by. rewrite srev_sapp. change (srev ":" ++ srev n) with (String ":" (srev n)). cbn [trim_start_by]. change (Ascii.eqb ":" ":") with true. cbv iota. destruct (srev n) as [|d z] eqn:R; [apply (f_equal srev) in R; rewrite srev_involutive in R; cbn in R; now subst n|].
      assert (ND : Ascii.eqb ":" d = false). { destruct (Ascii.eqb_spec ":" d) as [<-|]; [|reflexivity]. exfalso. unfold ends_with in E. rewrite R in E. cbn in E. discriminate. }
      rewrite head_kept by exact ND. rewrite <- R. apply srev_involutive. }
    rewrite TN, (tidy_trim n Tn). reflexivity.
  - unfold quad_line. cbn [existsb] in H. rewrite orb_false_r in H. destruct (String.eqb t ""); [reflexivity|]. destruct (starts_with "title" t); [reflexivity|]. destruct (starts_with "x-axis" t); [reflexivity|]. destruct (starts_with "y-axis" t); [reflexivity|]. destruct (starts_with "quadrant-" t); [reflexivity|]. cbn [orb] in *. apply negb_true_iff in H. rewrite contains_split in H. destruct (split_once "[" t); [discriminate|reflexivity].
Qed.
Definition pdot (p : string * (N * N)) : shape := with_fill "1565C0" (shape_new KCircle (add 1000000 (fst (snd p) - 300000 / 2)) (add 1800000 (snd (snd p) - 300000 / 2)) 300000 300000).
Definition pnote (p : string * (N * N)) : shape := let x := add 1000000 (fst (snd p) - 300000 / 2) in let y := add 1800000 (snd (snd p) - 300000 / 2) in
  with_text (fst p) (shape_new KRectangle (add (add x 300000) 50000) (sub (add y (300000 / 2)) (200000 / 2)) 800000 200000).
Lemma quad_all o doc code : forallb quad_ok doc = true -> marks doc <> [] -> Forall (spot_fits (o_spot o)) (marks doc) -> writes "quadrantChart" (map quad_text doc) code ->
  d_connectors (draw o code) = [] /\ exists tiles dots notes, quad_drawn (o_spot o) doc (d_shapes (draw o code)) tiles dots notes.
Proof.
  intros H NE FT W. apply rows_written in W as [R L]. assert (D : detect_type code = MQuadrant) by (unfold detect_type; rewrite L; reflexivity). rewrite (draw_by o _ code D). cbn [from_shapes from_shapes_and_connectors d_connectors d_shapes]. split; [reflexivity|].
  unfold quad_shapes. rewrite R. set (pts := map (fun m => (fst m, o_spot o (fst (snd m)) (snd (snd m)))) (marks doc)).
  assert (E : flat_map (quad_line (o_spot o)) (map quad_text doc) = pts).
  { unfold pts, marks. clear -H. induction doc as [|it doc IH]; [reflexivity|]. cbn [forallb] in H. apply andb_prop in H as [I H]. cbn [map flat_map]. rewrite (quad_read _ _ I), (IH H), map_app. now destruct it. }
  rewrite E. assert (NP : pts <> []) by (unfold pts; destruct (marks doc); [congruence|discriminate]). match goal with |- context [match pts with [] => ?A | _ :: _ => _ end] => assert (EM : match pts with [] => A | _ :: _ => @nil shape end = []) by (destruct pts; [congruence|reflexivity]); rewrite EM end.
  rewrite app_nil_r. match goal with |- context [(?T ++ flat_map put_point pts)%list] => set (tiles := T) end. exists tiles, (map pdot pts), (map pnote pts).
  assert (EF : flat_map put_point pts = flat_map (fun p => [pdot p; pnote p]) pts) by (apply flat_map_ext; intros [n [x y]]; reflexivity). rewrite EF.
  assert (BD : forall m, In m (marks doc) -> let p := (fst m, o_spot o (fst (snd m)) (snd (snd m))) in middle (pdot p) = (1000000 + fst (snd p))%N /\ centre (pdot p) = (1800000 + snd (snd p))%N /\ left_to (pdot p) (pnote p) /\ (sh_x (pnote p) < right_of (pdot p) + 100000)%N /\ centre (pnote p) = centre (pdot p)).
  { intros m I p. rewrite Forall_forall in FT. specialize (FT m I). unfold spot_fits in FT. change (fst (o_spot o (fst (snd m)) (snd (snd m)))) with (fst (snd p)) in FT. change (snd (o_spot o (fst (snd m)) (snd (snd m)))) with (snd (snd p)) in FT. set (x := fst (snd p)) in *. set (y := snd (snd p)) in *.
    unfold left_to, right_of, middle, centre, pdot, pnote. fold x y. cbn [sh_x sh_y sh_w sh_h with_fill with_text shape_new]. change (300000 / 2)%N with 150000%N. change (200000 / 2)%N with 100000%N.
    rewrite (add_exact 1000000 (x - 150000)), (add_exact 1800000 (y - 150000)) by lia. rewrite (add_exact (1000000 + (x - 150000)) 300000), (add_exact (1800000 + (y - 150000)) 150000) by lia. rewrite add_exact, sub_exact by lia. lia. }
  constructor.
  - apply Permutation_app_head, flat2.
  - vm_compute. reflexivity.
  - cbn. repeat (constructor; [cbn; intuition discriminate|]). constructor.
  - unfold pts. rewrite map_map. rewrite <- (map_id (marks doc)) at 1. apply both_map. apply Forall_forall. intros m I. destruct (BD m I) as (A & B & _). split; [reflexivity|]. split; [exact A|exact B].
  - unfold pts. rewrite !map_map. reflexivity.
  - apply both_map. unfold pts. apply Forall_forall. intros p I. apply in_map_iff in I as (m & <- & I). destruct (BD m I) as (_ & _ & A & B & C). auto.
Qed.
