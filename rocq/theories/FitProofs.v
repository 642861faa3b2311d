(** Proofs about the font size of a shape's text and its colour. *)
From Coq Require Import String Ascii List Bool ZArith NArith Reals Lia Lra Psatz.
From Flocq Require Import Core IEEE754.BinarySingleNaN.
From Verif Require Import Str Num ColorModel ColorSpec ColorProofs ShapeModel FloatModel FloatProofs DimModel DimSpec DimProofs FitModel FitSpec.
Import ListNotations.
Open Scope R_scope.

Local Instance fexp_ok64 : Valid_exp (SpecFloat.fexp 53 1024) := fexp_correct 53 1024 prec53.
Local Instance fexp_mono64 : Monotone_exp (SpecFloat.fexp 53 1024) := fexp_monotone 53 1024.
Definition has (x : f64) (v : R) : Prop := finite x /\ value x = v.
Definition huge : R := 18446744073709551616.
Lemma has_num z : (Z.abs z <= 9007199254740992)%Z -> has (num z) (IZR z).
Proof. exact (num_R z). Qed.
Lemma has_times x y u v : has x u -> has y v -> Rabs (u * v) <= huge -> has (times x y) (rnd (u * v)).
Proof. intros [A <-] [B <-] H. apply finite_gives; [now apply gives_mul|exact H]. Qed.
Lemma has_over x y u v : has x u -> has y v -> v <> 0 -> Rabs (u / v) <= huge -> has (over x y) (rnd (u / v)).
Proof. intros [A <-] [B <-] N H. apply finite_gives; [now apply gives_div|exact H]. Qed.
Lemma has_plus x y u v : has x u -> has y v -> Rabs (u + v) <= huge -> has (plus x y) (rnd (u + v)).
Proof. intros [A <-] [B <-] H. apply finite_gives; [now apply gives_add|exact H]. Qed.
Lemma has_minus x y u v : has x u -> has y v -> Rabs (u - v) <= huge -> has (minus x y) (rnd (u - v)).
Proof. intros [A <-] [B <-] H. apply finite_gives; [now apply gives_sub|exact H]. Qed.
Lemma has_compare x y u v : has x u -> has y v -> Bcompare x y = Some (Rcompare u v).
Proof. intros [A <-] [B <-]. now apply Bcompare_correct. Qed.
Lemma has_max x y u v : has x u -> has y v -> has (fmax x y) (Rmax u v).
Proof.
  intros X Y. unfold fmax. rewrite (has_compare _ _ _ _ X Y). destruct (Rcompare_spec u v) as [A|A|A]; [rewrite Rmax_right by lra; exact Y|rewrite Rmax_left by lra; exact X..].
Qed.
Lemma has_min x y u v : has x u -> has y v -> has (fmin x y) (Rmin u v).
Proof.
  intros X Y. unfold fmin. rewrite (has_compare _ _ _ _ X Y). destruct (Rcompare_spec u v) as [A|A|A]; [rewrite Rmin_left by lra; exact X..|rewrite Rmin_right by lra; exact Y].
Qed.
Lemma has_greater x y u v : has x u -> has y v -> if greater x y then v < u else u <= v.
Proof. intros X Y. unfold greater. rewrite (has_compare _ _ _ _ X Y). destruct (Rcompare_spec u v); lra. Qed.
Lemma has_less x y u v : has x u -> has y v -> if less x y then u < v else v <= u.
Proof. intros X Y. unfold less. rewrite (has_compare _ _ _ _ X Y). destruct (Rcompare_spec u v); lra. Qed.

(** ** Rounding *)
Lemma rnd_le u v : u <= v -> rnd u <= rnd v.
Proof. apply round_le; auto with typeclass_instances. Qed.
Lemma rnd_z z : (Z.abs z <= 9007199254740992)%Z -> rnd (IZR z) = IZR z.
Proof. exact (exact_int 53 1024 z). Qed.
Lemma error_at k e v : (-1000 <= k)%Z -> bpow radix2 (k - 54) <= e -> Rabs v <= bpow radix2 k -> Rabs (rnd v - v) <= e.
Proof. intros K E H. eapply Rle_trans; [apply (rnd_error 53 1024 v k)|]; [unfold SpecFloat.emin; lia|exact H|]. replace (k - 53 - 1)%Z with (k - 54)%Z by lia. exact E. Qed.
Lemma rel v : / 1099511627776 <= v -> exists d, -/ 9007199254740992 <= d <= / 9007199254740992 /\ rnd v = v * (1 + d).
Proof.
  intros H. destruct tiny as (T1 & T2 & T3). destruct (relative v) as (d & D & E). { rewrite Rabs_pos_eq by lra. lra. } rewrite T3 in D. apply Rabs_le_inv in D. now exists d.
Qed.
Lemma literal_has p q : (1 <= p <= 1000)%Z -> (1 <= q <= 1000)%Z -> has (literal p q) (rnd (IZR p / IZR q)).
Proof.
  intros P Q. assert (P1 : 1 <= IZR p <= 1000) by (split; apply IZR_le; lia). assert (Q1 : 1 <= IZR q <= 1000) by (split; apply IZR_le; lia).
  apply has_over; [apply has_num; lia|apply has_num; lia|lra|]. assert (I : 0 < / IZR q <= 1) by (split; [apply Rinv_0_lt_compat; lra|rewrite <- Rinv_1; apply Rinv_le; lra]).
  unfold Rdiv, huge. rewrite Rabs_pos_eq by nra. nra.
Qed.
Lemma rnd_half z : (Z.abs z <= 9007199254740992)%Z -> rnd (IZR z / 2) = IZR z / 2.
Proof.
  intros H. apply round_generic; auto with typeclass_instances. destruct (Z.eq_dec z 9007199254740992) as [->|N1]; [|destruct (Z.eq_dec z (-9007199254740992)) as [->|N2]].
  - replace (9007199254740992 / 2) with (bpow radix2 52) by (cbn; lra). apply generic_format_bpow. discriminate.
  - replace (-9007199254740992 / 2) with (- bpow radix2 52) by (cbn; lra). apply generic_format_opp, generic_format_bpow. discriminate.
  - apply (generic_format_FLT radix2 (SpecFloat.emin 53 1024) 53). exists (Float radix2 z (-1)); [unfold F2R; cbn; lra|cbn [Fnum]; change (radix2 ^ 53)%Z with 9007199254740992%Z; lia|discriminate].
Qed.

(** ** Room *)
Lemma usable_has emu : u32_range emu -> exists u, has (usable emu) u /\ 10 <= u <= 400000 /\ Rabs (u - room emu) <= 1 / 1000000000.
Proof.
  intros R. unfold u32_range in R. assert (B : 0 <= IZR emu <= 4294967295) by (split; apply IZR_le; lia).
  assert (b13 : bpow radix2 13 = 8192) by reflexivity. assert (b19 : bpow radix2 19 = 524288) by reflexivity. assert (b4 : bpow radix2 4 = 16) by reflexivity.
  assert (e13 : bpow radix2 (13 - 54) = / 2199023255552) by reflexivity. assert (e19 : bpow radix2 (19 - 54) = / 34359738368) by reflexivity. assert (e4 : bpow radix2 (4 - 54) = / 1125899906842624) by reflexivity.
  set (v1 := IZR emu / 914400). assert (V1 : 0 <= v1 <= 4698) by (unfold v1; lra).
  assert (H1 : has (over (num emu) (num 914400)) (rnd v1)) by (apply has_over; [apply has_num; lia|apply has_num; lia|lra|rewrite Rabs_pos_eq; unfold v1, huge in *; lra]).
  pose proof (error_at 13 (/ 2199023255552) v1 ltac:(lia) ltac:(lra) ltac:(rewrite b13, Rabs_pos_eq; lra)) as E1. apply Rabs_le_inv in E1.
  set (v2 := rnd v1 * 72). assert (V2 : -1 <= v2 <= 340000) by (unfold v2; lra).
  assert (H2 : has (times (over (num emu) (num 914400)) (num 72)) (rnd v2)) by (apply has_times; [exact H1|apply has_num; lia|fold v2; apply Rabs_le; unfold huge; lra]).
  pose proof (error_at 19 (/ 34359738368) v2 ltac:(lia) ltac:(lra) ltac:(rewrite b19; apply Rabs_le; lra)) as E2. apply Rabs_le_inv in E2.
  pose proof (literal_has 144 10 ltac:(lia) ltac:(lia)) as H3. pose proof (error_at 4 (/ 1125899906842624) (144 / 10) ltac:(lia) ltac:(lra) ltac:(rewrite b4; apply Rabs_le; lra)) as E3. apply Rabs_le_inv in E3.
  set (v4 := rnd v2 - rnd (144 / 10)). assert (V4 : -100 <= v4 <= 350000) by (unfold v4; lra).
  assert (H4 : has (minus (times (over (num emu) (num 914400)) (num 72)) (literal 144 10)) (rnd v4)) by (apply has_minus; [exact H2|exact H3|fold v4; apply Rabs_le; unfold huge; lra]).
  pose proof (error_at 19 (/ 34359738368) v4 ltac:(lia) ltac:(lra) ltac:(rewrite b19; apply Rabs_le; lra)) as E4. apply Rabs_le_inv in E4.
  pose proof (has_max _ _ _ _ H4 (has_num 10 ltac:(lia))) as H5. exists (Rmax (rnd v4) 10). split; [exact H5|].
  assert (D : Rabs (rnd v4 - (IZR emu / 12700 - 144 / 10)) <= 1 / 1000000000) by (apply Rabs_le; unfold v4, v2, v1 in *; lra). apply Rabs_le_inv in D.
  split; [split; [apply Rmax_r|apply Rmax_lub; lra]|]. unfold room. apply Rabs_le. unfold Rmax. destruct (Rle_dec (rnd v4) 10); destruct (Rle_dec 10 (IZR emu / 12700 - 144 / 10)); lra.
Qed.
Lemma usable_mono a b u v : u32_range a -> u32_range b -> (a <= b)%Z -> has (usable a) u -> has (usable b) v -> u <= v.
Proof.
  intros A B L HU HV. unfold u32_range in *. assert (BA : 0 <= IZR a <= 4294967295) by (split; apply IZR_le; lia). assert (BB : 0 <= IZR b <= 4294967295) by (split; apply IZR_le; lia). assert (AB : IZR a <= IZR b) by now apply IZR_le.
  assert (G : forall z, u32_range z -> has (usable z) (Rmax (rnd (rnd (rnd (IZR z / 914400) * 72) - rnd (144 / 10))) 10)).
  { intros z Z. unfold u32_range in Z. assert (BZ : 0 <= IZR z <= 4294967295) by (split; apply IZR_le; lia).
    assert (R1 : 0 <= rnd (IZR z / 914400) <= 4698) by (split; [apply (proj2 (rnd_int 0 (IZR z / 914400) ltac:(lia))); lra|apply (proj1 (rnd_int 4698 (IZR z / 914400) ltac:(lia))); lra]).
    assert (R2 : 0 <= rnd (rnd (IZR z / 914400) * 72) <= 338256) by (split; [apply (proj2 (rnd_int 0 (rnd (IZR z / 914400) * 72) ltac:(lia))); lra|apply (proj1 (rnd_int 338256 (rnd (IZR z / 914400) * 72) ltac:(lia))); lra]).
    assert (R3 : 0 <= rnd (144 / 10) <= 15) by (split; [apply (proj2 (rnd_int 0 (144 / 10) ltac:(lia))); lra|apply (proj1 (rnd_int 15 (144 / 10) ltac:(lia))); lra]).
    apply has_max; [|apply (has_num 10); lia]. apply has_minus; [|apply literal_has; lia|apply Rabs_le; unfold huge; lra]. apply has_times; [|apply (has_num 72); lia|apply Rabs_le; unfold huge; lra].
    apply has_over; [apply has_num; lia|apply has_num; lia|lra|apply Rabs_le; unfold huge; lra]. }
  destruct (G a A) as [_ EA]. destruct (G b B) as [_ EB]. destruct HU as [_ <-]. destruct HV as [_ <-]. rewrite EA, EB. apply Rle_max_compat_r, rnd_le, Rplus_le_compat_r, rnd_le.
  apply Rmult_le_compat_r; [lra|]. apply rnd_le. lra.
Qed.

(** ** Lines *)
Lemma weight_has n : (0 <= n <= 9007199254740992)%Z -> exists w, has (weight (num n)) w /\ 1 <= w <= 3 / 2 /\ ((n <= 30)%Z -> w = 1).
Proof.
  intros N. pose proof (has_num n ltac:(lia)) as H. unfold weight. pose proof (has_greater _ _ _ _ H (has_num 50 ltac:(lia))) as A. destruct (greater (num n) (num 50)).
  - exists (3 / 2). split; [pose proof (literal_has 3 2 ltac:(lia) ltac:(lia)) as L; rewrite (rnd_half 3) in L by lia; exact L|]. split; [lra|]. intros Q. apply lt_IZR in A. lia.
  - pose proof (has_greater _ _ _ _ H (has_num 30 ltac:(lia))) as B. destruct (greater (num n) (num 30)).
    + eexists. split; [apply literal_has; lia|]. split; [|intros Q; apply lt_IZR in B; lia].
      split; [apply (proj2 (rnd_int 1 (12 / 10) ltac:(lia))); lra|]. rewrite <- (rnd_half 3) by lia. apply rnd_le. lra.
    + exists 1. split; [apply (has_num 1); lia|]. split; [lra|reflexivity].
Qed.
Section FIT.
  Variable blank : string -> bool.
  Lemma shown_written l : (String.eqb l "" || blank l)%bool = false <-> written blank l.
  Proof. unfold written. rewrite orb_false_iff, String.eqb_neq. tauto. Qed.
  Lemma wrap_has ls : forall t m k kk T M, has t T -> has m (IZR M) -> (0 <= M <= 1125899906842624)%Z -> (0 <= k)%Z -> (k + Z.of_nat (length ls) <= 1125899906842625)%Z -> IZR k <= T <= IZR k * kk ->
    (kk = 1 \/ kk = 3 / 2) -> (kk = 1 -> Forall (fun l => (Z.of_N (chars l) <= 30)%Z) ls) -> Forall (fun l => (Z.of_N (chars l) <= 1125899906842624)%Z) ls ->
    exists T' M', has (fst (fold_left (wrap_step blank) ls (t, m))) T' /\ has (snd (fold_left (wrap_step blank) ls (t, m))) (IZR M') /\
      IZR (k + Z.of_nat (length ls)) <= T' <= IZR (k + Z.of_nat (length ls)) * kk /\ (M <= M' <= 1125899906842624)%Z /\
      (forall l, In l ls -> written blank l -> (Z.of_N (chars l) <= M')%Z) /\ (M' = M \/ exists l, In l ls /\ written blank l /\ Z.of_N (chars l) = M').
  Proof.
    induction ls as [|l ls IH]; intros t m k kk T M HT HM M0 K0 K1 B KK SH LO.
    - exists T, M. cbn [fold_left fst snd length Z.of_nat]. rewrite Z.add_0_r. split; [exact HT|]. split; [exact HM|]. split; [exact B|]. split; [lia|]. split; [intros l []|now left].
    - cbn [fold_left length]. cbn [length] in K1. rewrite Nat2Z.inj_succ in *. inversion LO as [|? ? L0 LO']; subst. assert (SH' : kk = 1 -> Forall (fun l => (Z.of_N (chars l) <= 30)%Z) ls) by (intros E; specialize (SH E); now inversion SH).
      assert (K2 : 0 <= IZR k <= 1125899906842625) by (split; apply IZR_le; lia). assert (E2 : IZR (k + 1) = IZR k + 1) by apply plus_IZR.
      assert (STEP : forall w W, has w W -> 1 <= W -> (kk = 1 -> W = 1) -> W <= 3 / 2 -> exists T1, has (plus t w) T1 /\ IZR (k + 1) <= T1 <= IZR (k + 1) * kk).
      { intros w W HW W1 W2 W3. eexists. split; [apply has_plus; [exact HT|exact HW|]|].
        - apply Rabs_le. unfold huge. destruct KK as [-> | ->]; lra.
        - split; [apply (proj2 (rnd_int (k + 1) (T + W) ltac:(lia))); lra|]. destruct KK as [-> | ->].
          + rewrite Rmult_1_r. apply (proj1 (rnd_int (k + 1) (T + W) ltac:(lia))). specialize (W2 eq_refl). lra.
          + replace (IZR (k + 1) * (3 / 2)) with (IZR (3 * (k + 1)) / 2) by (rewrite mult_IZR; lra). rewrite <- (rnd_half (3 * (k + 1))) by lia. apply rnd_le. rewrite mult_IZR. lra. }
      unfold wrap_step at 2 4. destruct (String.eqb l "" || blank l)%bool eqn:S.
      + destruct (STEP _ _ (has_num 1 ltac:(lia)) ltac:(lra) ltac:(reflexivity) ltac:(lra)) as (T1 & H1 & B1).
        destruct (IH _ m (k + 1)%Z kk T1 M H1 HM M0 ltac:(lia) ltac:(lia) B1 KK SH' LO') as (T' & M' & A1 & A2 & A3 & A4 & A5 & A6).
        exists T', M'. replace (k + Z.succ (Z.of_nat (length ls)))%Z with (k + 1 + Z.of_nat (length ls))%Z by lia. split; [exact A1|]. split; [exact A2|]. split; [exact A3|]. split; [exact A4|]. split.
        * intros x [<-|I] W; [apply shown_written in W; congruence|now apply A5].
        * destruct A6 as [E|(x & I & W & E)]; [now left|right; exists x; split; [now right|now split]].
      + destruct (weight_has (Z.of_N (chars l)) ltac:(lia)) as (W & HW & W1 & W2).
        destruct (STEP _ _ HW ltac:(lra) ltac:(intros E; apply W2; specialize (SH E); now inversion SH) ltac:(lra)) as (T1 & H1 & B1).
        pose proof (has_max _ _ _ _ HM (has_num (Z.of_N (chars l)) ltac:(lia))) as HM1. assert (MX : Rmax (IZR M) (IZR (Z.of_N (chars l))) = IZR (Z.max M (Z.of_N (chars l)))).
        { destruct (Z.le_ge_cases M (Z.of_N (chars l))) as [Q|Q]; [rewrite Z.max_r, Rmax_right; [reflexivity|now apply IZR_le|exact Q]|rewrite Z.max_l, Rmax_left; [reflexivity|now apply IZR_le|exact Q]]. }
        rewrite MX in HM1. destruct (IH _ _ (k + 1)%Z kk T1 _ H1 HM1 ltac:(lia) ltac:(lia) ltac:(lia) B1 KK SH' LO') as (T' & M' & A1 & A2 & A3 & A4 & A5 & A6).
        exists T', M'. replace (k + Z.succ (Z.of_nat (length ls)))%Z with (k + 1 + Z.of_nat (length ls))%Z by lia. split; [exact A1|]. split; [exact A2|]. split; [exact A3|]. split; [lia|]. split.
        * intros x [<-|I] X; [lia|now apply A5].
        * destruct A6 as [E|(x & I & X & E)]; [|right; exists x; split; [now right|now split]]. destruct (Z.max_spec M (Z.of_N (chars l))) as [[Q R]|[Q R]]; rewrite R in E; [|now left].
          right. exists l. split; [now left|]. split; [now apply shown_written|now symmetry].
  Qed.
End FIT.

(** ** The lines of a text *)
Lemma srev_len s : String.length (srev s) = String.length s.
Proof. induction s as [|c s IH]; [reflexivity|]. rewrite srev_cons, slength_app, IH. cbn. lia. Qed.
Lemma chop_cr_len s : (String.length (chop_cr s) <= String.length s)%nat.
Proof. unfold chop_cr. pose proof (srev_len s) as L. destruct (srev s) as [|c r]; [lia|]. destruct (Ascii.eqb c CR); [|lia]. rewrite srev_len. cbn in L. lia. Qed.
Lemma split_len c s : (length (split_char c s) <= S (String.length s))%nat /\ Forall (fun p => (String.length p <= String.length s)%nat) (split_char c s).
Proof.
  induction s as [|x s [IH1 IH2]]; [split; [cbn; lia|repeat constructor]|]. cbn [split_char]. destruct (Ascii.eqb x c).
  - cbn [length String.length]. split; [lia|]. constructor; [cbn; lia|]. eapply Forall_impl; [|exact IH2]. cbn. lia.
  - destruct (split_char c s) as [|p l]; [split; [cbn; lia|apply Forall_cons; [cbn; lia|apply Forall_nil]]|]. cbn [length String.length] in *. inversion IH2; subst. split; [lia|]. constructor; [cbn; lia|]. eapply Forall_impl; [|eassumption]. cbn. lia.
Qed.
Lemma chop_last_len n l : Forall (fun p => (String.length p <= n)%nat) l -> (length (chop_last l) <= length l)%nat /\ Forall (fun p => (String.length p <= n)%nat) (chop_last l).
Proof.
  induction l as [|x l IH]; intros H; [split; [cbn; lia|constructor]|]. inversion H as [|? ? H1 H2]; subst. destruct l as [|y l].
  - cbn. destruct (String.eqb x ""); split; cbn; try lia; auto.
  - destruct (IH H2) as [A B]. change (chop_last (x :: y :: l)) with (chop_cr x :: chop_last (y :: l)). split; [cbn [length] in *; lia|]. constructor; [pose proof (chop_cr_len x); lia|exact B].
Qed.
Lemma chars_len s : (Z.of_N (chars s) <= Z.of_nat (String.length s))%Z.
Proof. induction s as [|c s IH]; [cbn; lia|]. cbn [chars String.length]. destruct (_ && _)%bool; lia. Qed.
Lemma lines_bounds t : holdable t -> (Z.of_nat (length (lines t)) <= 1125899906842625)%Z /\ Forall (fun l => (Z.of_N (chars l) <= 1125899906842624)%Z) (lines t).
Proof.
  unfold holdable. intros H. destruct (split_len LF t) as [A B]. destruct (chop_last_len _ _ B) as [C D]. fold (lines t) in C, D. split; [lia|]. eapply Forall_impl; [|exact D]. intros l L. cbv beta in L |- *. pose proof (chars_len l). lia.
Qed.

(** ** The size *)
Section SIZE.
  Variable blank : string -> bool.
  Lemma wrapped text kk : holdable text -> (kk = 1 \/ kk = 3 / 2) -> (kk = 1 -> Forall (fun l => (Z.of_N (chars l) <= 30)%Z) (lines text)) ->
    exists T M, has (fst (wrapped_lines blank (lines text))) T /\ has (snd (wrapped_lines blank (lines text))) (IZR M) /\ number_of_lines text <= T <= number_of_lines text * kk /\ (0 <= M <= 1125899906842624)%Z /\
      (forall l, In l (lines text) -> written blank l -> (Z.of_N (chars l) <= M)%Z) /\ (M = 0%Z \/ exists l, In l (lines text) /\ written blank l /\ Z.of_N (chars l) = M).
  Proof.
    intros H KK SH. destruct (lines_bounds text H) as [L C]. destruct (wrap_has blank (lines text) (num 0) (num 0) 0%Z kk 0 0%Z) as (T & M & A1 & A2 & A3 & A4 & A5 & A6); try assumption; try lia; try (apply (has_num 0); lia).
    { rewrite Rmult_0_l. lra. }
    exists T, M. unfold number_of_lines. rewrite INR_IZR_INZ. rewrite Z.add_0_l in A3. repeat (split; [assumption|]). assumption.
  Qed.
  (** A size from a length [u] and a number [v] of units each [w] wide. *)
  Lemma quotient x y u v w (r : R) : has x u -> has y v -> 10 <= u <= 400000 -> 1 <= v <= 2251799813685252 -> has w (rnd r) -> 1 / 10 <= r <= 2 ->
    exists F, has (over x (times y w)) F /\ Rabs (F * (v * r) - u) <= 1 / 1000000000 /\ 0 <= F <= 40000000.
  Proof.
    intros X Y U V W R. destruct (rel r ltac:(lra)) as (d0 & D0 & E0). rewrite E0 in W. assert (P0 : 1 / 20 <= r * (1 + d0) <= 3) by (split; nra). assert (P1 : 1 / 20 <= v * (r * (1 + d0)) <= 9007199254740992) by (generalize dependent (r * (1 + d0)); intros; split; nra).
    destruct (rel (v * (r * (1 + d0))) ltac:(lra)) as (d1 & D1 & E1). pose proof (has_times _ _ _ _ Y W ltac:(rewrite Rabs_pos_eq; unfold huge; lra)) as H1. rewrite E1 in H1.
    set (D := v * (r * (1 + d0)) * (1 + d1)) in *. assert (P2 : 1 / 40 <= D <= 18014398509481984) by (unfold D; clear D H1 E1; generalize dependent (v * (r * (1 + d0))); intros; split; nra). assert (I : / 18014398509481984 <= / D <= 40) by (split; [apply Rinv_le; lra|replace 40 with (/ (1 / 40)) by field; apply Rinv_le; lra]).
    assert (Q : 10 * / 18014398509481984 <= u / D <= 16000000) by (unfold Rdiv; split; nra). pose proof (has_over _ _ _ _ X H1 ltac:(lra) ltac:(rewrite Rabs_pos_eq; unfold huge; lra)) as H2.
    destruct (relative (u / D)) as (d2 & D2 & E2). { rewrite Rabs_pos_eq by lra. apply Rle_trans with (bpow radix2 (-60)); [now apply bpow_le|]. assert (G : bpow radix2 (-60) = / 1152921504606846976) by reflexivity. rewrite G. lra. }
    destruct tiny as (_ & _ & T3). rewrite T3 in D2. apply Rabs_le_inv in D2. rewrite E2 in H2. exists (u / D * (1 + d2)). split; [exact H2|].
    split; [|split; [apply Rmult_le_pos; lra|nra]].
    assert (E : u / D * (1 + d2) * (v * r) - u = u * (((1 + d2) - (1 + d0) * (1 + d1)) / ((1 + d0) * (1 + d1)))) by (unfold D; field; nra). rewrite E.
    set (k := (1 + d0) * (1 + d1)). assert (K : 1 / 2 <= k) by (unfold k; nra). assert (NUM : - / 1000000000000000 <= (1 + d2) - k <= / 1000000000000000) by (unfold k; split; nra).
    assert (IK : 0 < / k <= 2) by (split; [apply Rinv_0_lt_compat; lra|replace 2 with (/ (1 / 2)) by field; apply Rinv_le; lra]).
    assert (Z1 : - (2 / 1000000000000000) <= ((1 + d2) - k) / k <= 2 / 1000000000000000) by (unfold Rdiv; split; nra). apply Rabs_le. split; nra.
  Qed.
  Lemma sized text w h kk : holdable text -> u32_range w -> u32_range h -> (kk = 1 \/ kk = 3 / 2) -> (kk = 1 -> Forall (fun l => (Z.of_N (chars l) <= 30)%Z) (lines text)) ->
    exists T M F G, number_of_lines text <= T <= number_of_lines text * kk /\
      (forall l, In l (lines text) -> written blank l -> (Z.of_N (chars l) <= M)%Z) /\ (M = 0%Z \/ exists l, In l (lines text) /\ written blank l /\ Z.of_N (chars l) = M) /\
      (if Z.eq_dec M 0 then F = 72 else (0 < M)%Z /\ Rabs (F * (IZR M / 2) - room w) <= 1 / 100000000) /\
      (if Rle_dec T 0 then G = 72 else 1 <= T /\ Rabs (G * (T * (115 / 100)) - room h) <= 1 / 100000000) /\ 0 <= F <= 40000000 /\ 0 <= G <= 40000000 /\
      font_size blank text w h = Z.max 600 (Z.min 7200 (between 0 u32_hi (Ztrunc (rnd (Rmin F G * 100))))).
  Proof.
    intros H RW RH KK SH. destruct (wrapped text kk H KK SH) as (T & M & HT & HM & BT & BM & LE & EX). destruct (lines_bounds text H) as [LB _].
    assert (NB : 0 <= number_of_lines text <= 1125899906842625) by (unfold number_of_lines; rewrite INR_IZR_INZ; split; apply IZR_le; lia).
    destruct (usable_has w RW) as (u & U1 & U2 & U3). destruct (usable_has h RH) as (v & V1 & V2 & V3). apply Rabs_le_inv in U3, V3.
    unfold font_size. destruct (wrapped_lines blank (lines text)) as [t m]. cbn [fst snd] in *.
    assert (FF : exists F, has (if greater m (num 0) then over (usable w) (times m char_width_ratio) else num 72) F /\ (if Z.eq_dec M 0 then F = 72 else (0 < M)%Z /\ Rabs (F * (IZR M / 2) - room w) <= 1 / 100000000) /\ 0 <= F <= 40000000).
    { pose proof (has_greater _ _ _ _ HM (has_num 0 ltac:(lia))) as C. destruct (greater m (num 0)).
      - apply lt_IZR in C. assert (MB : 1 <= IZR M <= 1125899906842624) by (split; apply IZR_le; lia). destruct (quotient (usable w) m u (IZR M) char_width_ratio (5 / 10)) as (F & A & B & D); try assumption; try lra; [apply literal_has; lia|].
        exists F. split; [exact A|]. split; [|exact D]. destruct (Z.eq_dec M 0); [lia|]. split; [exact C|]. replace (IZR M / 2) with (IZR M * (5 / 10)) by lra. apply Rabs_le_inv in B. apply Rabs_le. lra.
      - exists 72. split; [apply (has_num 72); lia|]. apply le_IZR in C. destruct (Z.eq_dec M 0); [split; [reflexivity|lra]|lia]. }
    assert (GG : exists G, has (if greater t (num 0) then over (usable h) (times t line_height_ratio) else num 72) G /\ (if Rle_dec T 0 then G = 72 else 1 <= T /\ Rabs (G * (T * (115 / 100)) - room h) <= 1 / 100000000) /\ 0 <= G <= 40000000).
    { pose proof (has_greater _ _ _ _ HT (has_num 0 ltac:(lia))) as C. destruct (greater t (num 0)).
      - assert (T1 : 1 <= T).
        { apply Rle_trans with (number_of_lines text); [|lra]. unfold number_of_lines in *. destruct (lines text) as [|x l]; [cbn [length INR] in *; destruct KK as [-> | ->]; lra|]. cbn [length]. rewrite S_INR. pose proof (pos_INR (length l)). lra. }
        destruct (quotient (usable h) t v T line_height_ratio (115 / 100)) as (F & A & B & D); try assumption; try lra; [destruct KK as [-> | ->]; lra|apply literal_has; lia|].
        exists F. split; [exact A|]. split; [|exact D]. destruct (Rle_dec T 0); [lra|]. split; [exact T1|]. apply Rabs_le_inv in B. apply Rabs_le. lra.
      - exists 72. split; [apply (has_num 72); lia|]. destruct (Rle_dec T 0); [split; [reflexivity|lra]|lra]. }
    destruct FF as (F & HF & PF & BF). destruct GG as (G & HG & PG & BG). exists T, M, F, G. repeat (split; [assumption|]).
    destruct (has_min _ _ _ _ HF HG) as [A B]. destruct (has_num 100 ltac:(lia)) as [C D]. rewrite as_u32_times by assumption. now rewrite B, D.
  Qed.
  Lemma size_range text w h : (600 <= font_size blank text w h <= 7200)%Z.
  Proof. unfold font_size. destruct (wrapped_lines blank (lines text)). lia. Qed.
  Lemma size_fits text w h : holdable text -> u32_range w -> u32_range h -> (600 < font_size blank text w h)%Z ->
    (forall l, In l (lines text) -> written blank l -> line_width (font_size blank text w h) l <= room w + 1 / 1000000) /\
    height_of (font_size blank text w h) (number_of_lines text) <= room h + 1 / 1000000.
  Proof.
    intros H RW RH S. destruct (sized text w h (3 / 2) H RW RH (or_intror eq_refl) ltac:(intros; lra)) as (T & M & F & G & BT & LE & EX & PF & PG & BF & BG & E).
    set (s := font_size blank text w h) in *. set (x := Rmin F G) in *. assert (X0 : 0 <= x <= 40000000) by (unfold x; unfold Rmin; destruct (Rle_dec F G); lra).
    assert (R0 : 0 <= rnd (x * 100)) by (apply (proj2 (rnd_int 0 (x * 100) ltac:(lia))); lra). destruct (trunc_bounds _ R0) as [TB _].
    pose proof (error_at 32 (/ 4194304) (x * 100) ltac:(lia) ltac:(apply Req_le; reflexivity) ltac:(cbn; rewrite Rabs_pos_eq; lra)) as ER. apply Rabs_le_inv in ER.
    assert (SL : (s <= Ztrunc (rnd (x * 100)))%Z) by (unfold between in E; lia). apply IZR_le in SL. assert (S600 : 600 < IZR s) by now apply IZR_lt. assert (S7200 : IZR s <= 7200) by (apply IZR_le; unfold between in E; lia).
    assert (X5 : 5 <= x) by lra. destruct (rel (x * 100) ltac:(lra)) as (d & D & ED).
    assert (SX : IZR s / 100 <= x * (1 + / 9007199254740992)) by (assert (SR : IZR s <= rnd (x * 100)) by lra; rewrite ED in SR; clear TB SL ED E; nra). assert (XF : x <= F) by apply Rmin_l. assert (XG : x <= G) by apply Rmin_r.
    assert (RB : forall z, u32_range z -> 10 <= room z <= 400000). { intros z Z. unfold u32_range in Z. unfold room. assert (0 <= IZR z <= 4294967295) by (split; apply IZR_le; lia). split; [apply Rmax_l|apply Rmax_lub; lra]. }
    split.
    - intros l I W. specialize (LE l I W). unfold line_width. assert (C : 0 <= IZR (Z.of_N (chars l)) <= IZR M) by (split; apply IZR_le; lia). pose proof (RB w RW). destruct (Z.eq_dec M 0) as [->|N].
      + assert (C0 : IZR (Z.of_N (chars l)) = 0) by lra. rewrite C0. lra.
      + destruct PF as [_ PF]. apply Rabs_le_inv in PF. assert (A : IZR s / 100 * (IZR (Z.of_N (chars l)) / 2) <= F * (1 + / 9007199254740992) * (IZR M / 2)) by (apply Rmult_le_compat; nra). nra.
    - unfold height_of. pose proof (RB h RH). assert (N0 : 0 <= number_of_lines text) by apply pos_INR. destruct (Rle_dec T 0) as [Z0|Z0].
      + assert (N1 : number_of_lines text = 0) by lra. rewrite N1. lra.
      + destruct PG as [_ PG]. apply Rabs_le_inv in PG. assert (A : IZR s / 100 * (number_of_lines text * (115 / 100)) <= G * (1 + / 9007199254740992) * (T * (115 / 100))) by (apply Rmult_le_compat; nra). nra.
  Qed.
  Lemma size_large text w h s kk : holdable text -> u32_range w -> u32_range h -> (kk = 1 \/ kk = 3 / 2) -> (kk = 1 -> Forall (fun l => (Z.of_N (chars l) <= 30)%Z) (lines text)) -> (0 <= s <= 7200)%Z ->
    (forall l, In l (lines text) -> written blank l -> line_width s l <= room w - 1 / 1000000) -> height_of s (number_of_lines text * kk) <= room h - 1 / 1000000 -> (s <= font_size blank text w h)%Z.
  Proof.
    intros H RW RH KK SH S FW FH. destruct (sized text w h kk H RW RH KK SH) as (T & M & F & G & BT & LE & EX & PF & PG & BF & BG & ->). assert (SR : 0 <= IZR s <= 7200) by (split; apply IZR_le; lia).
    assert (AF : IZR s / 100 <= F).
    { destruct (Z.eq_dec M 0) as [->|N]; [lra|]. destruct PF as [P PF]. destruct EX as [E|(l & I & W & E)]; [lia|]. specialize (FW l I W). unfold line_width in FW. rewrite E in FW. apply Rabs_le_inv in PF. assert (1 <= IZR M) by (apply IZR_le; lia).
      apply Rmult_le_reg_r with (IZR M / 2); lra. }
    assert (AG : IZR s / 100 <= G).
    { destruct (Rle_dec T 0) as [Z0|Z0]; [lra|]. destruct PG as [P PG]. unfold height_of in FH. apply Rabs_le_inv in PG. assert (A : IZR s / 100 * (T * (115 / 100)) <= IZR s / 100 * (number_of_lines text * kk * (115 / 100))) by (apply Rmult_le_compat_l; nra).
      apply Rmult_le_reg_r with (T * (115 / 100)); lra. }
    assert (X : IZR s <= Rmin F G * 100) by (unfold Rmin; destruct (Rle_dec F G); lra). pose proof (proj2 (rnd_int s (Rmin F G * 100) ltac:(lia)) X) as Y. cbv beta in Y. apply Ztrunc_le in Y. rewrite Ztrunc_IZR in Y. unfold between, u32_hi. lia.
  Qed.
End SIZE.
Section GROWS.
  Variable blank : string -> bool.
  Lemma part_mono a b u v y k w r z : has a u -> has b v -> 10 <= u -> u <= v -> v <= 400000 -> has y k -> (k <= 0 \/ 1 <= k <= 2251799813685252) -> has w (rnd r) -> 1 / 10 <= r <= 2 -> has z 72 ->
    exists F G, has (if greater y (num 0) then over a (times y w) else z) F /\ has (if greater y (num 0) then over b (times y w) else z) G /\ 0 <= F <= G /\ G <= 40000000.
  Proof.
    intros A B U UV V Y K W R Z0. pose proof (has_greater _ _ _ _ Y (has_num 0 ltac:(lia))) as C. destruct (greater y (num 0)); [|exists 72, 72; repeat (split; [assumption|]); lra].
    assert (K1 : 1 <= k <= 2251799813685252) by lra. destruct (quotient a y u k w r A Y ltac:(lra) K1 W R) as (F & HF & _ & BF). destruct (quotient b y v k w r B Y ltac:(lra) K1 W R) as (G & HG & _ & BG).
    exists F, G. split; [exact HF|]. split; [exact HG|]. split; [|lra]. split; [lra|].
    destruct (rel r ltac:(lra)) as (d0 & D0 & E0). rewrite E0 in W. assert (P0 : 1 / 20 <= r * (1 + d0) <= 3) by (split; nra). assert (P1 : 1 / 20 <= k * (r * (1 + d0)) <= 9007199254740992) by (generalize dependent (r * (1 + d0)); intros; split; nra).
    pose proof (has_times _ _ _ _ Y W ltac:(rewrite Rabs_pos_eq; unfold huge; lra)) as H1. destruct (rel (k * (r * (1 + d0))) ltac:(lra)) as (d1 & D1 & E1). rewrite E1 in H1.
    set (D := k * (r * (1 + d0)) * (1 + d1)) in *. assert (P2 : 1 / 40 <= D) by (unfold D; clear D H1 E1; generalize dependent (k * (r * (1 + d0))); intros; nra).
    assert (I : 0 < / D <= 40) by (split; [apply Rinv_0_lt_compat; lra|replace 40 with (/ (1 / 40)) by field; apply Rinv_le; lra]).
    assert (Q1 : 0 <= u / D <= 16000000) by (unfold Rdiv; split; nra). assert (Q2 : 0 <= v / D <= 16000000) by (unfold Rdiv; split; nra).
    destruct (has_over _ _ _ _ A H1 ltac:(lra) ltac:(rewrite Rabs_pos_eq; unfold huge; lra)) as [_ EF]. destruct (has_over _ _ _ _ B H1 ltac:(lra) ltac:(rewrite Rabs_pos_eq; unfold huge; lra)) as [_ EG].
    destruct HF as [_ <-]. destruct HG as [_ <-]. rewrite EF, EG. apply rnd_le. unfold Rdiv. apply Rmult_le_compat_r; lra.
  Qed.
  Lemma size_grows text w h w' h' : holdable text -> u32_range w' -> u32_range h' -> (0 <= w <= w')%Z -> (0 <= h <= h')%Z -> (font_size blank text w h <= font_size blank text w' h')%Z.
  Proof.
    intros H RW RH LW LH. assert (RW0 : u32_range w) by (unfold u32_range in *; lia). assert (RH0 : u32_range h) by (unfold u32_range in *; lia).
    destruct (wrapped blank text (3 / 2) H (or_intror eq_refl) ltac:(intros; lra)) as (T & M & HT & HM & BT & BM & _). destruct (lines_bounds text H) as [LB _].
    destruct (usable_has w RW0) as (u & U1 & U2 & _). destruct (usable_has w' RW) as (u' & U1' & U2' & _). destruct (usable_has h RH0) as (v & V1 & V2 & _). destruct (usable_has h' RH) as (v' & V1' & V2' & _).
    pose proof (usable_mono _ _ _ _ RW0 RW (proj2 LW) U1 U1') as UM. pose proof (usable_mono _ _ _ _ RH0 RH (proj2 LH) V1 V1') as VM.
    assert (NB : 0 <= number_of_lines text <= 1125899906842625) by (unfold number_of_lines; rewrite INR_IZR_INZ; split; apply IZR_le; lia).
    assert (TK : T <= 0 \/ 1 <= T <= 2251799813685252).
    { unfold number_of_lines in *. destruct (lines text) as [|x l]; [left; cbn [length INR] in *; lra|right]. cbn [length] in *. rewrite S_INR in *. pose proof (pos_INR (length l)). lra. }
    assert (MK : IZR M <= 0 \/ 1 <= IZR M <= 2251799813685252). { destruct (Z.eq_dec M 0) as [->|N]; [left; lra|right; split; apply IZR_le; lia]. }
    unfold font_size. destruct (wrapped_lines blank (lines text)) as [t m]. cbn [fst snd] in *.
    destruct (part_mono _ _ _ _ m (IZR M) char_width_ratio (5 / 10) (num 72) U1 U1' ltac:(lra) UM ltac:(lra) HM MK (literal_has 5 10 ltac:(lia) ltac:(lia)) ltac:(lra) (has_num 72 ltac:(lia))) as (F & F' & HF & HF' & BF & BF').
    destruct (part_mono _ _ _ _ t T line_height_ratio (115 / 100) (num 72) V1 V1' ltac:(lra) VM ltac:(lra) HT TK (literal_has 115 100 ltac:(lia) ltac:(lia)) ltac:(lra) (has_num 72 ltac:(lia))) as (G & G' & HG & HG' & BG & BG').
    destruct (has_min _ _ _ _ HF HG) as [A1 A2]. destruct (has_min _ _ _ _ HF' HG') as [B1 B2]. destruct (has_num 100 ltac:(lia)) as [C D]. rewrite !as_u32_times by assumption. rewrite A2, B2, D.
    assert (X : Rmin F G * 100 <= Rmin F' G' * 100) by (unfold Rmin; destruct (Rle_dec F G); destruct (Rle_dec F' G'); lra). pose proof (whole_mono 53 1024 0 u32_hi _ _ X). lia.
  Qed.
End GROWS.

(** ** Contrast *)
Lemma luminance_close r g b : (r <= 255)%N -> (g <= 255)%N -> (b <= 255)%N -> exists v, has (luminance r g b) v /\ Rabs (v - IZR (Z.of_N (lightness r g b)) / 1000) <= 1 / 1000000000.
Proof.
  intros R G B. assert (PART : forall p n, (1 <= p <= 1000)%Z -> (n <= 255)%N -> exists v, has (times (literal p 1000) (num (Z.of_N n))) v /\ -1 <= v <= 256 /\ Rabs (v - IZR p / 1000 * IZR (Z.of_N n)) <= 1 / 10000000000).
  { intros p n P N. assert (P1 : 1 <= IZR p <= 1000) by (split; apply IZR_le; lia). assert (N1 : 0 <= IZR (Z.of_N n) <= 255) by (split; apply IZR_le; lia).
    assert (b0 : bpow radix2 0 = 1) by reflexivity. assert (b9 : bpow radix2 9 = 512) by reflexivity. assert (e0 : bpow radix2 (0 - 54) = / 18014398509481984) by reflexivity. assert (e9 : bpow radix2 (9 - 54) = / 35184372088832) by reflexivity.
    pose proof (error_at 0 (/ 18014398509481984) (IZR p / 1000) ltac:(lia) ltac:(lra) ltac:(rewrite b0; apply Rabs_le; lra)) as E1. apply Rabs_le_inv in E1.
    assert (D : - (1 / 100000000000) <= rnd (IZR p / 1000) * IZR (Z.of_N n) - IZR p / 1000 * IZR (Z.of_N n) <= 1 / 100000000000) by (rewrite <- Rmult_minus_distr_r; split; nra).
    assert (Q : 0 <= IZR p / 1000 * IZR (Z.of_N n) <= 255) by (split; nra).
    pose proof (error_at 9 (/ 35184372088832) (rnd (IZR p / 1000) * IZR (Z.of_N n)) ltac:(lia) ltac:(lra) ltac:(rewrite b9; apply Rabs_le; lra)) as E2. apply Rabs_le_inv in E2.
    eexists. split; [apply has_times; [apply literal_has; lia|apply has_num; lia|apply Rabs_le; unfold huge; lra]|]. split; [lra|apply Rabs_le; lra]. }
  destruct (PART 299%Z r ltac:(lia) R) as (x & X & XB & XE). destruct (PART 587%Z g ltac:(lia) G) as (y & Y & YB & YE). destruct (PART 114%Z b ltac:(lia) B) as (z & Z & ZB & ZE). apply Rabs_le_inv in XE, YE, ZE.
  assert (b10 : bpow radix2 10 = 1024) by reflexivity. assert (e10 : bpow radix2 (10 - 54) = / 17592186044416) by reflexivity.
  pose proof (error_at 10 (/ 17592186044416) (x + y) ltac:(lia) ltac:(lra) ltac:(rewrite b10; apply Rabs_le; lra)) as E1. apply Rabs_le_inv in E1.
  pose proof (has_plus _ _ _ _ X Y ltac:(apply Rabs_le; unfold huge; lra)) as S1.
  pose proof (error_at 10 (/ 17592186044416) (rnd (x + y) + z) ltac:(lia) ltac:(lra) ltac:(rewrite b10; apply Rabs_le; lra)) as E2. apply Rabs_le_inv in E2.
  pose proof (has_plus _ _ _ _ S1 Z ltac:(apply Rabs_le; unfold huge; lra)) as S2. eexists. split; [exact S2|].
  assert (L : IZR (Z.of_N (lightness r g b)) = 299 * IZR (Z.of_N r) + 587 * IZR (Z.of_N g) + 114 * IZR (Z.of_N b)) by (unfold lightness; rewrite !N2Z.inj_add, !N2Z.inj_mul, !plus_IZR, !mult_IZR; reflexivity).
  rewrite L. apply Rabs_le. lra.
Qed.
Lemma dark_right r g b : (r <= 255)%N -> (g <= 255)%N -> (b <= 255)%N -> ((lightness r g b < 128000)%N -> less (luminance r g b) (num 128) = true) /\ ((128000 < lightness r g b)%N -> less (luminance r g b) (num 128) = false).
Proof.
  intros R G B. destruct (luminance_close r g b R G B) as (v & H & E). apply Rabs_le_inv in E. pose proof (has_less _ _ _ _ H (has_num 128 ltac:(lia))) as L. split; intros K.
  - destruct (less (luminance r g b) (num 128)); [reflexivity|]. assert (Q : IZR (Z.of_N (lightness r g b)) <= 127999) by (apply IZR_le; lia). lra.
  - destruct (less (luminance r g b) (num 128)); [|reflexivity]. assert (Q : 128001 <= IZR (Z.of_N (lightness r g b))) by (apply IZR_le; lia). lra.
Qed.
Lemma dark_read r g b rest : (r <= 255)%N -> (g <= 255)%N -> (b <= 255)%N -> boundary 0 rest = true -> is_dark_color (hexw 2 r ++ hexw 2 g ++ hexw 2 b ++ rest)%string = Ret (less (luminance r g b) (num 128)).
Proof.
  intros R G B BR. unfold is_dark_color. pose proof (from_hex_hexw r R) as ER. pose proof (from_hex_hexw g G) as EG. pose proof (from_hex_hexw b B) as EB.
  destruct (hexw2_upper r R) as (x1 & y1 & E1 & A1 & B1). destruct (hexw2_upper g G) as (x2 & y2 & E2 & A2 & B2). destruct (hexw2_upper b B) as (x3 & y3 & E3 & A3 & B3).
  rewrite E1, E2, E3 in *. cbn [append trim_start_by]. rewrite (upper_not_hash x1 A1). cbn [String.length Nat.ltb Nat.leb]. unfold slice. 
  assert (S6 : boundary 6 (String x1 (String y1 (String x2 (String y2 (String x3 (String y3 rest)))))) = true). { unfold boundary in *. cbn [String.get] in *. destruct rest as [|c rest]; [reflexivity|exact BR]. }
  rewrite S6. unfold boundary. cbn [String.get]. rewrite (upper_boundary x1 A1), (upper_boundary x2 A2), (upper_boundary x3 A3). cbn [andb Nat.sub String.substring bind].
  unfold byte_or. rewrite ER, EG. destruct rest; cbn [String.substring]; now rewrite EB.
Qed.
Lemma contrast r g b rest : (r <= 255)%N -> (g <= 255)%N -> (b <= 255)%N -> boundary 0 rest = true ->
  ((lightness r g b < 128000)%N -> get_text_color (Some (hexw 2 r ++ hexw 2 g ++ hexw 2 b ++ rest)%string) = Ret "FFFFFF"%string) /\
  ((128000 < lightness r g b)%N -> get_text_color (Some (hexw 2 r ++ hexw 2 g ++ hexw 2 b ++ rest)%string) = Ret "000000"%string).
Proof.
  intros R G B BR. unfold get_text_color. rewrite (dark_read r g b rest R G B BR). cbn [bind]. destruct (dark_right r g b R G B) as [D L]. split; intros K; [now rewrite (D K)|now rewrite (L K)].
Qed.
