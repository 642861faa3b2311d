From Coq Require Import String Ascii List Bool Arith NArith Lia.
From Verif Require Import Str Num ColorModel ColorSpec.
Open Scope string_scope.

Lemma hexw2 n : (n <= 255)%N -> exists x y, hexw 2 n = String x (String y "") /\
  x = hex_digit (n / 16 mod 16) /\ y = hex_digit (n mod 16).
Proof. intros H. rewrite hexw_exact by (cbn; lia). eexists _, _. split; [reflexivity|split; reflexivity]. Qed.
Lemma from_hex_hexw n : (n <= 255)%N -> from_hex_str u8_max (hexw 2 n) = Some n.
Proof.
  intros H. unfold from_hex_str. pose proof (hexw_val 2 n) as V.
  destruct (hexw2 n H) as (x & y & E & Hx & Hy). rewrite E in *.
  assert (x <> "+"%char).
  { destruct (hex_digit_upper (n / 16 mod 16)) as [U _]; [apply N.mod_lt; lia|]. rewrite <- Hx in U. intros ->. discriminate U. }
  replace (match x with "+"%char => _ | _ => _ end) with (String x (String y "")).
  - rewrite V. destruct (N.leb_spec n u8_max); [reflexivity|unfold u8_max in *; lia].
  - destruct x as [[] [] [] [] [] [] [] []]; try reflexivity. congruence.
Qed.

Lemma upper_boundary c : is_upper_hex c = true -> negb ((128 <=? N_of_ascii c)%N && (N_of_ascii c <=? 191)%N) = true.
Proof. destruct c as [[] [] [] [] [] [] [] []]; vm_compute; auto. Qed.
Lemma upper_not_hash c : is_upper_hex c = true -> is_hash c = false.
Proof. destruct c as [[] [] [] [] [] [] [] []]; vm_compute; auto. Qed.

Lemma hexw2_upper n : (n <= 255)%N -> exists x y, hexw 2 n = String x (String y "") /\ is_upper_hex x = true /\ is_upper_hex y = true.
Proof.
  intros H. pose proof (hexw_upper 2 n) as U. destruct (hexw2 n H) as (x & y & E & _). exists x, y. split; [exact E|].
  rewrite E in U. cbn [sforall] in U. rewrite !andb_true_iff in U. tauto.
Qed.

Lemma to_hex_roundtrip c : rgb_ok c -> from_hex (to_hex c) = Ret (Some c).
Proof.
  destruct c as [R G B]. intros (HR & HG & HB). unfold from_hex, to_hex. cbn [r g b] in *.
  pose proof (from_hex_hexw R HR) as ER. pose proof (from_hex_hexw G HG) as EG. pose proof (from_hex_hexw B HB) as EB.
  destruct (hexw2_upper R HR) as (x1 & y1 & E1 & A1 & B1). destruct (hexw2_upper G HG) as (x2 & y2 & E2 & A2 & B2).
  destruct (hexw2_upper B HB) as (x3 & y3 & E3 & A3 & B3). rewrite E1, E2, E3 in *. cbn [append trim_start_by].
  rewrite (upper_not_hash x1 A1). cbn [String.length Nat.eqb negb]. unfold slice, boundary. cbn [String.get String.length Nat.eqb].
  rewrite (upper_boundary x1 A1), (upper_boundary x2 A2), (upper_boundary x3 A3). cbn [andb Nat.sub String.substring bind].
  now rewrite ER, EG, EB.
Qed.

Lemma cv_roundtrip c : cv_ok c -> cv_from_hex (cv_to_hex c) = Ret (Cv (cr c) (cg c) (cb c) 255) /\
  cv_from_hex (cv_to_hex_alpha c) = Ret c.
Proof.
  destruct c as [R G B A]. intros (HR & HG & HB & HA). unfold cv_from_hex, cv_to_hex, cv_to_hex_alpha. cbn [cr cg cb ca] in *.
  pose proof (from_hex_hexw R HR) as ER. pose proof (from_hex_hexw G HG) as EG. pose proof (from_hex_hexw B HB) as EB. pose proof (from_hex_hexw A HA) as EA.
  destruct (hexw2_upper R HR) as (x1 & y1 & E1 & A1 & B1). destruct (hexw2_upper G HG) as (x2 & y2 & E2 & A2 & B2).
  destruct (hexw2_upper B HB) as (x3 & y3 & E3 & A3 & B3). destruct (hexw2_upper A HA) as (x4 & y4 & E4 & A4 & B4).
  rewrite E1, E2, E3, E4 in *. cbn [append trim_start_by].
  rewrite (upper_not_hash x1 A1). cbn [String.length Nat.eqb negb]. unfold slice, boundary. cbn [String.get String.length Nat.eqb].
  rewrite (upper_boundary x1 A1), (upper_boundary x2 A2), (upper_boundary x3 A3), (upper_boundary x4 A4). cbn [andb Nat.sub String.substring bind].
  unfold byte_or. now rewrite ER, EG, EB, EA.
Qed.

Lemma invert_involutive c : cv_ok c -> invert (invert c) = c /\
  invert c = Cv (255 - cr c) (255 - cg c) (255 - cb c) (ca c).
Proof.
  destruct c as [R G B A]. intros (HR & HG & HB & _). unfold byte in *. cbn [cr cg cb ca] in *. unfold invert. cbn [cr cg cb ca].
  assert (W : forall x, (x <= 255)%N -> wsub u8_max 255 x = (255 - x)%N) by (intros x Hx; apply wsub_exact; unfold u8_max; lia).
  rewrite (W R HR), (W G HG), (W B HB). rewrite !W by lia. split; [f_equal; lia|reflexivity].
Qed.

(** ** Acceptance *)
Lemma digit_val c v : hex_val c = Some v <-> digit c v.
Proof.
  unfold hex_val, digit. pose proof (N_ascii_bounded c).
  destruct (N.leb_spec 48 (N_of_ascii c)); cbn [andb].
  - destruct (N.leb_spec (N_of_ascii c) 57).
    + split; [intros E; injection E as <-; left; eexists; repeat split; lia|].
      intros [(k & A & -> & B)|(k & A & -> & B)]; [f_equal|exfalso]; lia.
    + destruct (N.leb_spec 65 (N_of_ascii c)); cbn [andb].
      * destruct (N.leb_spec (N_of_ascii c) 70).
        -- split; [intros E; injection E as <-; right; exists (N_of_ascii c - 65)%N; repeat split; lia|].
           intros [(k & A & -> & B)|(k & A & -> & B)]; [exfalso|f_equal]; lia.
        -- destruct (N.leb_spec 97 (N_of_ascii c)); cbn [andb].
           ++ destruct (N.leb_spec (N_of_ascii c) 102).
              ** split; [intros E; injection E as <-; right; exists (N_of_ascii c - 97)%N; repeat split; lia|].
                 intros [(k & A & -> & B)|(k & A & -> & B)]; [exfalso|f_equal]; lia.
              ** split; [discriminate|]. intros [(k & A & -> & B)|(k & A & -> & B)]; exfalso; lia.
           ++ split; [discriminate|]. intros [(k & A & -> & B)|(k & A & -> & B)]; exfalso; lia.
      * destruct (N.leb_spec 97 (N_of_ascii c)); [lia|]. cbn [andb]. split; [discriminate|].
        intros [(k & A & -> & B)|(k & A & -> & B)]; exfalso; lia.
  - destruct (N.leb_spec 65 (N_of_ascii c)); [lia|]. destruct (N.leb_spec 97 (N_of_ascii c)); [lia|]. cbn [andb].
    split; [discriminate|]. intros [(k & A & -> & B)|(k & A & -> & B)]; exfalso; lia.
Qed.
Lemma digit_bound c v : digit c v -> (v <= 15)%N.
Proof. intros [(k & A & -> & _)|(k & A & -> & _)]; lia. Qed.
Lemma digit_not_plus v : ~ digit "+"%char v.
Proof. intros [(k & A & _ & B)|(k & A & _ & B)]; change (N_of_ascii "+"%char) with 43%N in B; lia. Qed.

Lemma pair_read x y v : from_hex_str u8_max (String x (String y "")) = Some v <-> pair x y v.
Proof.
  unfold pair. destruct (ascii_dec x "+"%char) as [->|Hx].
  - cbn [from_hex_str hex_digits_val]. destruct (hex_val y) as [d|] eqn:E.
    + apply digit_val in E. pose proof (digit_bound _ _ E). cbn [N.mul N.add]. destruct (N.leb_spec d u8_max); [|unfold u8_max in *; lia].
      split; [intros Q; injection Q as <-; right; auto|]. intros [(a & b' & A & _)|[_ D]]; [now apply digit_not_plus in A|].
      apply digit_val in E, D. congruence.
    + split; [discriminate|]. intros [(a & b' & A & _)|[_ D]]; [now apply digit_not_plus in A|]. apply digit_val in D. congruence.
  - replace (from_hex_str u8_max (String x (String y ""))) with
      (match hex_digits_val (String x (String y "")) 0 with Some v => if (v <=? u8_max)%N then Some v else None | None => None end)
      by (destruct x as [[] [] [] [] [] [] [] []]; try reflexivity; congruence).
    cbn [hex_digits_val]. destruct (hex_val x) as [a|] eqn:Ea.
    + apply digit_val in Ea. pose proof (digit_bound _ _ Ea). destruct (hex_val y) as [d|] eqn:Ed.
      * apply digit_val in Ed. pose proof (digit_bound _ _ Ed). destruct (N.leb_spec ((0 * 16 + a) * 16 + d) u8_max); [|unfold u8_max in *; lia].
        split; [intros Q; injection Q as <-; left; exists a, d; repeat split; auto|].
        intros [(a' & d' & A & D & ->)|[E _]]; [|congruence]. apply digit_val in A, D, Ea, Ed.
        assert (a' = a) by congruence. assert (d' = d) by congruence. subst. reflexivity.
      * split; [discriminate|]. intros [(a' & d' & A & D & _)|[E _]]; [|congruence]. apply digit_val in D. congruence.
    + split; [discriminate|]. intros [(a' & d' & A & D & _)|[E _]]; [|congruence]. apply digit_val in A. congruence.
Qed.

Lemma pair_boundary x y v : pair x y v -> negb ((128 <=? N_of_ascii x)%N && (N_of_ascii x <=? 191)%N) = true.
Proof.
  intros [(a & b' & [(k & K & _ & E)|(k & K & _ & E)] & _)|[-> _]]; [| |reflexivity];
    (destruct (N.leb_spec 128 (N_of_ascii x)); [exfalso; lia|reflexivity]).
Qed.

Lemma trim_hash s : exists n, s = string_of_list_ascii (repeat "#"%char n) ++ trim_start_by is_hash s.
Proof.
  induction s as [|c s [n IH]]; [exists 0; reflexivity|]. cbn [trim_start_by]. unfold is_hash at 1.
  destruct (Ascii.eqb_spec c "#"%char) as [->|H].
  - exists (S n). cbn. now f_equal.
  - exists 0. reflexivity.
Qed.
Lemma trim_hash_app n x s : x <> "#"%char ->
  trim_start_by is_hash (string_of_list_ascii (repeat "#"%char n) ++ String x s) = String x s.
Proof.
  intros H. induction n as [|n IH]; cbn [repeat string_of_list_ascii append trim_start_by].
  - unfold is_hash. destruct (Ascii.eqb_spec x "#"%char); congruence.
  - exact IH.
Qed.
Lemma pair_head_not_hash x y v : pair x y v -> x <> "#"%char.
Proof.
  intros [(a & b' & [(k & A & _ & E)|(k & A & _ & E)] & _)|[-> _]] Q; subst; [change (N_of_ascii "#"%char) with 35%N in E; lia..|discriminate].
Qed.
Lemma trim_head s : match trim_start_by is_hash s with String x _ => x <> "#"%char | "" => True end.
Proof.
  induction s as [|c s IH]; [exact I|]. cbn [trim_start_by]. unfold is_hash at 1. destruct (Ascii.eqb_spec c "#"%char); [exact IH|assumption].
Qed.

Lemma accept_iff s c : from_hex s = Ret (Some c) <-> denotes s c.
Proof.
  split.
  - unfold from_hex. cbv zeta. pose proof (trim_head s) as TH. destruct (trim_hash s) as [n En].
    set (h := trim_start_by is_hash s) in *. clearbody h.
    destruct h as [|x1 [|y1 [|x2 [|y2 [|x3 [|y3 [|z h]]]]]]]; cbn [String.length Nat.eqb negb]; try discriminate.
    unfold slice. destruct (boundary 0 _ && boundary 2 _); [|discriminate]. cbn [bind Nat.sub String.substring].
    destruct (from_hex_str u8_max (String x1 (String y1 ""))) as [v1|] eqn:E1; [|discriminate].
    destruct (boundary 2 _ && boundary 4 _); [|discriminate]. cbn [bind Nat.sub String.substring].
    destruct (from_hex_str u8_max (String x2 (String y2 ""))) as [v2|] eqn:E2; [|discriminate].
    destruct (boundary 4 _ && boundary 6 _); [|discriminate]. cbn [bind Nat.sub String.substring].
    destruct (from_hex_str u8_max (String x3 (String y3 ""))) as [v3|] eqn:E3; [|discriminate].
    intros Q. injection Q as <-. apply pair_read in E1, E2, E3. exists n, x1, y1, x2, y2, x3, y3. cbn [r g b]. repeat split; assumption.
  - intros (n & x1 & y1 & x2 & y2 & x3 & y3 & -> & Hh & P1 & P2 & P3). unfold from_hex. rewrite trim_hash_app by exact Hh.
    cbn [String.length Nat.eqb negb]. unfold slice, boundary. cbn [String.get String.length Nat.eqb].
    rewrite (pair_boundary _ _ _ P1), (pair_boundary _ _ _ P2), (pair_boundary _ _ _ P3). cbn [andb Nat.sub String.substring bind].
    apply pair_read in P1, P2, P3. rewrite P1, P2, P3. now destruct c.
Qed.

(** Only text outside ASCII can make the parsers panic. *)
Definition ascii_only (s : string) : bool := sforall (fun c => (N_of_ascii c <? 128)%N) s.
Lemma ascii_boundary h i : ascii_only h = true -> i <= String.length h -> boundary i h = true.
Proof.
  unfold boundary, ascii_only. revert i; induction h as [|c h IH]; intros i A L; cbn [String.length] in L.
  - replace i with 0 by lia. reflexivity.
  - cbn [sforall] in A. apply andb_true_iff in A. destruct A as [A1 A2]. destruct i as [|i]; cbn [String.get].
    + apply N.ltb_lt in A1. destruct (N.leb_spec 128 (N_of_ascii c)); [lia|reflexivity].
    + specialize (IH i A2 ltac:(lia)). cbn [String.length Nat.eqb]. exact IH.
Qed.
Lemma trim_ascii s : ascii_only s = true -> ascii_only (trim_start_by is_hash s) = true.
Proof.
  unfold ascii_only. induction s as [|c s IH]; [auto|]. intros H. cbn [trim_start_by]. destruct (is_hash c); [|exact H].
  cbn [sforall] in H. apply andb_true_iff in H. tauto.
Qed.
Lemma slice_ascii h i j : ascii_only h = true -> i <= String.length h -> j <= String.length h -> exists t, slice i j h = Ret t.
Proof. intros A I J. unfold slice. rewrite !ascii_boundary by assumption. eexists. reflexivity. Qed.
Lemma no_panic s : ascii_only s = true -> from_hex s <> Panic /\ cv_from_hex s <> Panic.
Proof.
  intros A. apply trim_ascii in A. unfold from_hex, cv_from_hex. cbv zeta. set (h := trim_start_by is_hash s) in *. clearbody h.
  destruct (Nat.eqb_spec (String.length h) 6) as [E|E]; cbn [negb].
  - destruct (slice_ascii h 0 2 A) as [t1 ->]; [lia..|]. destruct (slice_ascii h 2 4 A) as [t2 ->]; [lia..|].
    destruct (slice_ascii h 4 6 A) as [t3 ->]; [lia..|]. cbn [bind]. split; [|discriminate].
    destruct (from_hex_str u8_max t1); [|discriminate]. destruct (from_hex_str u8_max t2); [|discriminate]. destruct (from_hex_str u8_max t3); discriminate.
  - split; [discriminate|]. destruct (Nat.eqb_spec (String.length h) 8) as [E8|E8]; [|discriminate].
    destruct (slice_ascii h 0 2 A) as [t1 ->]; [lia..|]. destruct (slice_ascii h 2 4 A) as [t2 ->]; [lia..|].
    destruct (slice_ascii h 4 6 A) as [t3 ->]; [lia..|]. destruct (slice_ascii h 6 8 A) as [t4 ->]; [lia..|]. discriminate.
Qed.

Lemma byte_reads d x y : reads d x y (byte_or d (String x (String y ""))).
Proof.
  unfold reads, byte_or. destruct (from_hex_str u8_max (String x (String y ""))) as [v|] eqn:E.
  - left. now apply pair_read.
  - right. split; [reflexivity|]. intros w P. apply pair_read in P. congruence.
Qed.
Lemma value_reads s : sforall (fun c => (N_of_ascii c <? 128)%N) s = true ->
  exists n t c, s = string_of_list_ascii (repeat "#"%char n ++ t)%list /\ List.hd_error t <> Some "#"%char /\ cv_from_hex s = Ret c /\ value_of t c.
Proof.
  intros A. destruct (trim_hash s) as [n E]. pose proof (trim_head s) as H. unfold cv_from_hex. cbv zeta. set (t := trim_start_by is_hash s) in *. clearbody t.
  assert (B : forall k, k <= String.length t -> boundary k t = true).
  { rewrite E, sforall_app, andb_true_iff in A. destruct A as [_ A]. clear -A. intros k. unfold boundary. revert k. induction t as [|c t IH]; intros [|k] L; cbn in *; try reflexivity; try lia.
    - apply andb_true_iff in A. destruct A as [A _]. apply N.ltb_lt in A. destruct (N.leb_spec 128 (N_of_ascii c)); [lia|reflexivity].
    - apply andb_true_iff in A. apply IH; [tauto|lia]. }
  assert (S : forall i j, i <= String.length t -> j <= String.length t -> slice i j t = Ret (String.substring i (j - i) t)).
  { intros i j I J. unfold slice. now rewrite !B. }
  exists n, (list_ascii_of_string t). rewrite <- (string_of_list_ascii_of_string t) in E.
  assert (L : forall a b, string_of_list_ascii (a ++ b)%list = string_of_list_ascii a ++ string_of_list_ascii b)
    by (clear; induction a as [|x a IH]; intros b; [reflexivity|cbn; now rewrite IH]).
  rewrite L. rewrite <- E.
  assert (T : List.hd_error (list_ascii_of_string t) <> Some "#"%char) by (destruct t as [|x t]; cbn; congruence).
  destruct (Nat.eqb_spec (String.length t) 6) as [Q|Q]; [|destruct (Nat.eqb_spec (String.length t) 8) as [Q8|Q8]].
  - rewrite !S by lia. eexists. split; [reflexivity|]. split; [exact T|]. split; [reflexivity|].
    destruct t as [|x1 [|y1 [|x2 [|y2 [|x3 [|y3 [|]]]]]]]; try discriminate Q. cbn [list_ascii_of_string value_of cr cg cb ca].
    split; [apply byte_reads|]. split; [apply byte_reads|]. split; [apply byte_reads|reflexivity].
  - rewrite !S by lia. eexists. split; [reflexivity|]. split; [exact T|]. split; [reflexivity|].
    destruct t as [|x1 [|y1 [|x2 [|y2 [|x3 [|y3 [|x4 [|y4 [|]]]]]]]]]; try discriminate Q8. cbn [list_ascii_of_string value_of cr cg cb ca].
    split; [apply byte_reads|]. split; [apply byte_reads|]. split; [apply byte_reads|apply byte_reads].
  - eexists. split; [reflexivity|]. split; [exact T|]. split; [reflexivity|].
    destruct t as [|x1 [|y1 [|x2 [|y2 [|x3 [|y3 [|x4 [|y4 [|]]]]]]]]]; try reflexivity; cbn in Q, Q8; congruence.
Qed.
