(** Lemmas for diagrams of boxes and lines between them. *)
From Coq Require Import String Ascii List Bool Arith NArith ZArith Permutation Lia.
From Verif Require Import Str Num ColorModel TableModel ShapeModel ConnectorModel ValidSpec ValidProofs FlowModel FlowSpec FlowText FlowDraw FlowThms DiagramModel DiagramSpec DiagramCommon GraphSpec.
Import ListNotations.
Open Scope nat_scope.
Open Scope string_scope.

(** ** Pairs *)
Lemma fop_perm {A} (R : A -> A -> Prop) : (forall a b, R a b -> R b a) -> forall l l', Permutation l l' -> ForallOrdPairs R l -> ForallOrdPairs R l'.
Proof.
  intros S l l' P. induction P as [|x l l' P IH|x y l|l l' l'' P1 IH1 P2 IH2]; intros H; [constructor| | |auto].
  - inversion_clear H as [|? ? F H']. constructor; [|now apply IH]. rewrite Forall_forall in *. intros z Z. apply F. now apply (Permutation_in z (Permutation_sym P)).
  - inversion_clear H as [|? ? F H']. inversion_clear H' as [|? ? F' H'']. inversion_clear F as [|? ? YX FY]. repeat constructor; auto.
Qed.
Lemma fop_flat {A B} (R : B -> B -> Prop) (f : A -> list B) l : ForallOrdPairs (fun a b => Forall (fun x => Forall (R x) (f b)) (f a)) l -> Forall (fun a => ForallOrdPairs R (f a)) l -> ForallOrdPairs R (flat_map f l).
Proof.
  intros H I. induction H as [|a l F _ IH]; [constructor|]. inversion_clear I as [|? ? Ia I']. cbn [flat_map]. specialize (IH I'). clear I'.
  assert (C : Forall (fun x => Forall (R x) (flat_map f l)) (f a)).
  { rewrite Forall_forall in *. intros x X. rewrite Forall_forall. intros y Y. apply in_flat_map in Y as (b & Bi & Y). specialize (F b Bi). rewrite Forall_forall in F. specialize (F x X). rewrite Forall_forall in F. now apply F. }
  clear F. revert Ia C. generalize (f a) as m. induction m as [|x m IHm]; intros Ia C; [exact IH|]. inversion_clear Ia as [|? ? Fx Im]. inversion_clear C as [|? ? Cx Cm]. cbn [app]. constructor; [apply Forall_app; auto|auto].
Qed.
Lemma clear_sym a b : clear a b -> clear b a.
Proof. unfold clear. tauto. Qed.
(** ** Numbers *)
Lemma own_seq n m l : map sh_id l = map (fun k => Some (N.of_nat k)) (seq n m) -> own_numbers l.
Proof.
  intros E. split.
  - rewrite E. apply FinFun.Injective_map_NoDup; [|apply seq_NoDup]. intros a b Q. injection Q as Q. lia.
  - apply Forall_forall. intros s I. apply (in_map sh_id) in I. rewrite E in I. apply in_map_iff in I as (k & <- & _). discriminate.
Qed.
Lemma own_perm l l' : Permutation l l' -> own_numbers l -> own_numbers l'.
Proof. intros P [N F]. split; [now apply (Permutation_NoDup (Permutation_map sh_id P))|]. rewrite Forall_forall in *. intros s I. apply F. now apply (Permutation_in s (Permutation_sym P)). Qed.
(** ** Cells of the grid *)
Definition cx (x0 dx : N) (k : nat) : N := add x0 (mul (idx k mod 3) dx).
Definition cy (y0 dy : N) (k : nat) : N := add y0 (mul (idx k / 3) dy).
Lemma cx_exact x0 dx k : (x0 <= 3000000)%N -> (dx <= 3000000)%N -> k < 1000 -> cx x0 dx k = (x0 + N.of_nat k mod 3 * dx)%N.
Proof.
  intros X D K. unfold cx. rewrite idxe by lia. pose proof (N.mod_lt (N.of_nat k) 3 ltac:(lia)) as M. set (r := (N.of_nat k mod 3)%N) in *. clearbody r.
  assert (r * dx <= 3 * 3000000)%N by (apply N.mul_le_mono; lia). rewrite mul_exact by lia. apply add_exact. lia.
Qed.
Lemma cy_exact y0 dy k : (y0 <= 3000000)%N -> (dy <= 3000000)%N -> k < 1000 -> cy y0 dy k = (y0 + N.of_nat k / 3 * dy)%N.
Proof.
  intros X D K. unfold cy. rewrite idxe by lia. assert (Q : (N.of_nat k / 3 <= 333)%N) by (apply (N.div_le_mono _ 1001 3); lia). set (r := (N.of_nat k / 3)%N) in *. clearbody r.
  assert (r * dy <= 333 * 3000000)%N by (apply N.mul_le_mono; lia). rewrite mul_exact by lia. apply add_exact. lia.
Qed.
Lemma cell_apart x0 y0 dx dy i j : (x0 <= 3000000)%N -> (dx <= 3000000)%N -> (y0 <= 3000000)%N -> (dy <= 3000000)%N -> i < j -> j < 1000 ->
  (cx x0 dx i + dx <= cx x0 dx j)%N \/ (cy y0 dy i + dy <= cy y0 dy j)%N.
Proof.
  intros A B C D I J. rewrite !cx_exact, !cy_exact by lia. pose proof (N.div_mod (N.of_nat i) 3 ltac:(lia)) as E1. pose proof (N.div_mod (N.of_nat j) 3 ltac:(lia)) as E2.
  pose proof (N.mod_lt (N.of_nat i) 3 ltac:(lia)) as M1. pose proof (N.mod_lt (N.of_nat j) 3 ltac:(lia)) as M2.
  set (a := (N.of_nat i / 3)%N) in *. set (b := (N.of_nat j / 3)%N) in *. set (r := (N.of_nat i mod 3)%N) in *. set (s := (N.of_nat j mod 3)%N) in *. clearbody a b r s.
  destruct (N.eq_dec a b) as [<-|NE]; [left|right].
  - assert (r + 1 <= s)%N by lia. assert ((r + 1) * dx <= s * dx)%N by (apply N.mul_le_mono_r; lia). lia.
  - assert (a + 1 <= b)%N by lia. assert ((a + 1) * dy <= b * dy)%N by (apply N.mul_le_mono_r; lia). lia.
Qed.
(** Parts of different cells do not overlap. *)
Lemma parts_clear x0 y0 dx dy w h i j s t : (x0 <= 3000000)%N -> (dx <= 3000000)%N -> (y0 <= 3000000)%N -> (dy <= 3000000)%N -> i < j -> j < 1000 -> (w <= dx)%N -> (h <= dy)%N ->
  (sh_x s = cx x0 dx i)%N -> (sh_w s = w)%N -> (bottom_of s <= cy y0 dy i + h)%N -> (sh_x t = cx x0 dx j)%N -> (cy y0 dy j <= sh_y t)%N -> clear s t.
Proof.
  intros A B C D I J W H X WW Y X' Y'. unfold clear, left_to, right_of, over. rewrite X, WW, X'. destruct (cell_apart x0 y0 dx dy i j A B C D I J); [left; lia|right; right; left; lia].
Qed.
Lemma cells_same x0 y0 dx dy i j : (x0 <= 3000000)%N -> (0 < dx <= 3000000)%N -> (y0 <= 3000000)%N -> (0 < dy <= 3000000)%N -> i < 1000 -> j < 1000 -> cx x0 dx i = cx x0 dx j -> cy y0 dy i = cy y0 dy j -> i = j.
Proof.
  intros A B C D I J X Y. destruct (Nat.lt_trichotomy i j) as [L|[->|L]]; [|reflexivity|].
  - destruct (cell_apart x0 y0 dx dy i j); try lia.
  - destruct (cell_apart x0 y0 dx dy j i); try lia.
Qed.
Lemma cell_small x0 y0 dx dy k : (x0 <= 3000000)%N -> (dx <= 3000000)%N -> (y0 <= 3000000)%N -> (dy <= 3000000)%N -> k < 1000 -> (cx x0 dx k <= 9000000 /\ cy y0 dy k <= 1002000000)%N /\ (x0 <= cx x0 dx k)%N /\ (y0 <= cy y0 dy k)%N.
Proof.
  intros A B C D K. rewrite cx_exact, cy_exact by lia. pose proof (N.mod_lt (N.of_nat k) 3 ltac:(lia)). assert (Q : (N.of_nat k / 3 <= 333)%N) by (apply (N.div_le_mono _ 1001 3); lia).
  set (r := (N.of_nat k mod 3)%N) in *. set (q := (N.of_nat k / 3)%N) in *. clearbody r q. assert (r * dx <= 2 * 3000000)%N by (apply N.mul_le_mono; lia). assert (q * dy <= 333 * 3000000)%N by (apply N.mul_le_mono; lia). lia.
Qed.

(** ** Lines between boxes *)
Section Links.
Variables (fill line color : string) (head : arrow) (lw w h : N).
(** [put_move] and [put_er] at once *)
Definition put_link (s : anchors * list connector) (m : string * string * string) : anchors * list connector :=
  let '(a, cns) := s in
  let '(from, to, label) := m in
  match lookup from (a_pos a), lookup to (a_pos a) with
  | Some (fx, fy), Some (tx, ty) =>
    let '(ss, es) := sites fx fy tx ty in
    (put_label fill line lw w h fx fy tx ty label a,
     (cns ++ [tied color head (add fx w) (add fy (h / 2)) tx (add ty (h / 2)) (a_ids a) from to ss es])%list)
  | _, _ => s
  end.
Variables (names : list string) (boxes : list shape) (pos : list (string * (N * N))) (ids : list (string * N)).
Hypothesis H_w : (w <= 3000000)%N.
Hypothesis H_h : (h <= 3000000)%N.
Hypothesis H_even : (h mod 2 = 0)%N.
Hypothesis H_lw : (lw <= 1000000)%N.
Hypothesis H_lw_even : (lw mod 2 = 0)%N.
Hypothesis H_boxes : forall i n, nth_error names i = Some n -> exists b k, nth_error boxes i = Some b /\ lookup n pos = Some (sh_x b, sh_y b) /\ sh_id b = Some k /\ lookup n ids = Some k
  /\ sh_w b = w /\ sh_h b = h /\ (500000 <= sh_x b <= 1100000000)%N /\ (500000 <= sh_y b <= 1100000000)%N.
Hypothesis H_same : forall i j a b, nth_error boxes i = Some a -> nth_error boxes j = Some b -> sh_x a = sh_x b -> sh_y a = sh_y b -> a = b.
Definition text_of (o : option string) : string := match o with Some x => x | None => "" end.
Lemma facing_sites i j a b : nth_error boxes i = Some a -> nth_error boxes j = Some b -> let '(ss, es) := sites (sh_x a) (sh_y a) (sh_x b) (sh_y b) in facing a b ss es.
Proof.
  intros A B. unfold sites, facing. destruct (N.ltb_spec (sh_x a) (sh_x b)); [left; auto|]. destruct (N.ltb_spec (sh_x b) (sh_x a)); [right; left; auto|].
  destruct (N.ltb_spec (sh_y a) (sh_y b)); [right; right; left; auto|]. destruct (N.eq_dec (sh_y a) (sh_y b)) as [E|E].
  - right. right. right. right. apply (H_same i j); auto. lia.
  - right. right. right. left. repeat split. lia.
Qed.
Lemma links_put links : Forall (fun m => In (fst (fst m)) names /\ In (snd (fst m)) names /\ match snd m with Some x => x <> "" | None => True end) links ->
  forall shs n cns, (N.of_nat (n + length links) <= 4000000)%N -> exists labels lines, fold_left put_link (map (fun m => (fst m, text_of (snd m))) links) (Anchors shs pos ids (N.of_nat n), cns)
   = (Anchors (shs ++ labels) pos ids (N.of_nat (n + length labels)), (cns ++ lines)%list)
  /\ linked (fun c a b => ties head c a b /\ across c a b) fst names boxes links lines
  /\ labelled links lines labels /\ map sh_id labels = map (fun k => Some (N.of_nat k)) (seq n (length labels)).
Proof.
  induction links as [|[[f t] l] links IH]; intros F shs n cns L.
  - exists [], []. split; [cbn; now rewrite !app_nil_r, Nat.add_0_r|]. split; [constructor|]. split; [constructor|reflexivity].
  - inversion_clear F as [|? ? (IF & IT & NL) F']. cbn [fst snd] in IF, IT, NL. cbn [length] in L. cbn [map fold_left fst snd put_link a_pos].
    apply In_nth_error in IF as [i IF]. apply In_nth_error in IT as [j IT]. destruct (H_boxes i f IF) as (a & ka & Ba & Pa & Ia & Ka & Wa & Ha & Xa & Ya). destruct (H_boxes j t IT) as (b & kb & Bb & Pb & Ib & Kb & Wb & Hb & Xb & Yb).
    rewrite Pa, Pb. destruct (sites (sh_x a) (sh_y a) (sh_x b) (sh_y b)) as [ss es] eqn:SS. set (c := tied color head _ _ _ _ _ f t ss es).
    assert (TC : ties head c a b).
    { unfold ties, c, tied. cbn [start_shape end_shape start_arrow end_arrow start_site end_site a_ids]. rewrite Ka, Kb, Ia, Ib. repeat split; try discriminate. exists ss, es. repeat split. pose proof (facing_sites i j a b Ba Bb) as Q. now rewrite SS in Q. }
    assert (AC : across c a b).
    { unfold across, c, tied, right_of, centre. cbn [start_x start_y end_x end_y]. rewrite Wa, Ha, Hb. assert (h / 2 <= 3000000)%N by (etransitivity; [apply N.div_le_upper_bound with (q := h)|]; lia). rewrite !add_exact by lia. auto. }
    assert (LK : forall lines, linked (fun c a b => ties head c a b /\ across c a b) fst names boxes links lines -> linked (fun c a b => ties head c a b /\ across c a b) fst names boxes ((f, t, l) :: links) (c :: lines)).
    { intros lines Q. constructor; [|exact Q]. exists i, j, a, b. cbn [fst snd]. auto 8. }
    destruct l as [cap|]; cbn [text_of].
    + unfold put_label. assert (NE : String.eqb cap "" = false) by (destruct (String.eqb_spec cap ""); [congruence|reflexivity]). rewrite NE. cbn [a_shapes a_pos a_ids a_next]. rewrite (add_exact (N.of_nat n) 1) by lia. replace (N.of_nat n + 1)%N with (N.of_nat (S n)) by lia.
      set (s := with_text cap _). destruct (IH F' (shs ++ [s])%list (S n) (cns ++ [c])%list) as (labels & lines & E & K & B & D); [lia|]. exists (s :: labels), (c :: lines). split; [|split; [now apply LK|split]].
      * rewrite E. cbn [length]. f_equal; [|now rewrite <- app_assoc]. f_equal; [now rewrite <- app_assoc|]. f_equal. lia.
      * unfold labelled. cbn [combine flat_map fst snd app]. constructor; [|exact B]. cbn [fst snd]. split; [reflexivity|]. destruct AC as (C1 & C2 & C3 & C4). rewrite C1, C2, C3, C4. unfold middle, centre, right_of, s. cbn [sh_x sh_y sh_w sh_h with_text with_line with_fill with_id shape_new]. rewrite Wa, Ha, Hb.
        rewrite (add_exact (sh_x a) w), (add_exact (sh_x a + w) (sh_x b)), (add_exact (sh_y a) (sh_y b)), (add_exact (sh_y a + sh_y b) h) by lia. change (250000 / 2)%N with 125000%N. assert (EH : (h = h / 2 + h / 2)%N) by (rewrite (N.div_mod h 2) at 1 by lia; lia). assert (LL : (lw / 2 <= 500000)%N) by (apply N.div_le_upper_bound; lia).
        assert (M1 : (500000 <= (sh_x a + w + sh_x b) / 2)%N) by (apply N.div_le_lower_bound; lia). assert (M2 : (500000 <= (sh_y a + sh_y b + h) / 2)%N) by (apply N.div_le_lower_bound; lia).
        split; [lia|]. replace (sh_y a + h / 2 + (sh_y b + h / 2))%N with (sh_y a + sh_y b + h)%N by (rewrite EH at 1; lia). lia.
      * cbn [map length seq]. rewrite D. reflexivity.
    + unfold put_label. cbn [String.eqb]. destruct (IH F' shs n (cns ++ [c])%list) as (labels & lines & E & K & B & D); [lia|]. exists labels, (c :: lines). split; [rewrite E; now rewrite <- app_assoc|]. split; [now apply LK|]. split; [exact B|exact D].
Qed.
End Links.
