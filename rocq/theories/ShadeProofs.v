(** Proofs about changes of a colour. *)
From Coq Require Import ZArith NArith Reals List Lia Lra Psatz.
From Flocq Require Import Core IEEE754.BinarySingleNaN.
From Verif Require Import FloatModel FloatProofs ColorModel ShadeModel ShadeSpec.
Import ListNotations.
Open Scope R_scope.

Notation rnd := (round radix2 (SpecFloat.fexp 24 128) ZnearestE).
Notation gives32 := (gives 24 128).
Local Instance fexp_ok32 : Valid_exp (SpecFloat.fexp 24 128) := fexp_correct 24 128 prec24.
Local Instance fexp_mono32 : Monotone_exp (SpecFloat.fexp 24 128) := fexp_monotone 24 128.

(** A finite number with its value. *)
Definition has (x : f32) (v : R) : Prop := is_finite x = true /\ B2R x = v.
Lemma has_num z : (Z.abs z <= 16777216)%Z -> has (num32 z) (IZR z).
Proof. exact (int_R 24 128 z). Qed.
Lemma has_gives z v : gives32 z v -> Rabs v <= 65536 -> has z (rnd v).
Proof.
  intros G H. assert (L : Rabs (rnd v) < bpow radix2 128).
  { apply Rle_lt_trans with (bpow radix2 16); [|now apply bpow_lt]. apply abs_round_le_generic; auto with typeclass_instances. apply generic_format_bpow. discriminate. }
  destruct G as [(F & V & _)|[(_ & B)|(_ & B)]]; [now split|apply Rabs_lt_inv in L; lra..].
Qed.
Lemma has_times x y u v : has x u -> has y v -> Rabs (u * v) <= 65536 -> has (times32 x y) (rnd (u * v)).
Proof. intros [A <-] [B <-] H. apply has_gives; [now apply gives_mul|exact H]. Qed.
Lemma has_over x y u v : has x u -> has y v -> v <> 0 -> Rabs (u / v) <= 65536 -> has (over32 x y) (rnd (u / v)).
Proof. intros [A <-] [B <-] N H. apply has_gives; [now apply gives_div|exact H]. Qed.
Lemma has_plus x y u v : has x u -> has y v -> Rabs (u + v) <= 65536 -> has (plus32 x y) (rnd (u + v)).
Proof. intros [A <-] [B <-] H. apply has_gives; [now apply gives_add|exact H]. Qed.
Lemma has_minus x y u v : has x u -> has y v -> Rabs (u - v) <= 65536 -> has (minus32 x y) (rnd (u - v)).
Proof. intros [A <-] [B <-] H. apply has_gives; [now apply gives_sub|exact H]. Qed.
Lemma has_unit x : is_finite x = true -> has (unit32 x) (unit_of (B2R x)).
Proof.
  intros F. unfold unit32, clamp_unit, unit_of. fold (num32 0). fold (num32 1). destruct (has_num 0 ltac:(lia)) as [F0 V0]. destruct (has_num 1 ltac:(lia)) as [F1 V1].
  rewrite (Bcompare_correct 24 128 x (num32 0) F F0), (Bcompare_correct 24 128 x (num32 1) F F1), V0, V1.
  destruct (Rcompare_spec (B2R x) 0) as [A|A|A].
  - split; [exact F0|]. rewrite V0. rewrite Rmax_left; [reflexivity|]. eapply Rle_trans; [apply Rmin_r|lra].
  - rewrite A. rewrite Rcompare_Lt by lra. split; [exact F|]. rewrite A. rewrite Rmin_right by lra. now rewrite Rmax_left by lra.
  - destruct (Rcompare_spec (B2R x) 1) as [B|B|B].
    + split; [exact F|]. rewrite Rmin_right by lra. now rewrite Rmax_right by lra.
    + split; [exact F|]. rewrite B. rewrite Rmin_left by lra. now rewrite Rmax_right by lra.
    + split; [exact F1|]. rewrite V1. rewrite Rmin_left by lra. now rewrite Rmax_right by lra.
Qed.
Lemma unit_range x : 0 <= unit_of x <= 1.
Proof. unfold unit_of. split; [apply Rmax_l|]. apply Rmax_lub; [lra|apply Rmin_l]. Qed.
Lemma unit_mono x y : x <= y -> unit_of x <= unit_of y.
Proof. intros H. apply Rle_max_compat_l. now apply Rle_min_compat_l. Qed.
Lemma unit_low x : x <= 0 -> unit_of x = 0.
Proof. intros H. unfold unit_of. rewrite Rmin_right, Rmax_left; lra. Qed.
Lemma unit_high x : 1 <= x -> unit_of x = 1.
Proof. intros H. unfold unit_of. rewrite Rmin_left, Rmax_right; lra. Qed.

(** ** Rounding *)
Lemma err8 v : Rabs v <= 256 -> Rabs (rnd v - v) <= 1 / 131072.
Proof. intros H. eapply Rle_trans; [apply (rnd_error 24 128 v 8)|]; [discriminate|cbn; lra|]. change (8 - 24 - 1)%Z with (-17)%Z. assert (G : bpow radix2 (-17) = / 131072) by reflexivity. rewrite G. lra. Qed.
Lemma err0 v : Rabs v <= 1 -> Rabs (rnd v - v) <= 1 / 33554432.
Proof. intros H. eapply Rle_trans; [apply (rnd_error 24 128 v 0)|]; [discriminate|cbn; lra|]. change (0 - 24 - 1)%Z with (-25)%Z. assert (G : bpow radix2 (-25) = / 33554432) by reflexivity. rewrite G. lra. Qed.
Lemma int_le z v : (Z.abs z <= 16777216)%Z -> (v <= IZR z -> rnd v <= IZR z) /\ (IZR z <= v -> IZR z <= rnd v).
Proof. intros Z0. pose proof (exact_int 24 128 z Z0) as E. split; intros H; rewrite <- E; apply round_le; auto with typeclass_instances. Qed.
Lemma rnd_int z : (Z.abs z <= 16777216)%Z -> rnd (IZR z) = IZR z.
Proof. exact (exact_int 24 128 z). Qed.
Lemma rnd_le u v : u <= v -> rnd u <= rnd v.
Proof. apply round_le; auto with typeclass_instances. Qed.
Lemma byte_real c : (c <= 255)%N -> 0 <= real c <= 255.
Proof. intros H. unfold real. split; apply IZR_le; lia. Qed.
Lemma has_byte c : (c <= 255)%N -> has (byte32 c) (real c).
Proof. intros H. apply has_num. lia. Qed.
Lemma as_u8_has x v : has x v -> as_u8 x = Z.to_N (between 0 255 (Ztrunc v)).
Proof. intros [F <-]. unfold as_u8. now rewrite (cast_finite 24 128 0 u8_hi x F). Qed.
Lemma as_u8_le x : (as_u8 x <= 255)%N.
Proof.
  unfold as_u8. destruct (is_finite x) eqn:F; [rewrite (cast_finite 24 128 0 u8_hi x F); unfold between, u8_hi; lia|]. destruct x as [s|s| |s m e E]; try discriminate F; try (destruct s); vm_compute; discriminate.
Qed.
Lemma u8_mono u v : u <= v -> (Z.to_N (between 0 255 (Ztrunc u)) <= Z.to_N (between 0 255 (Ztrunc v)))%N.
Proof. intros H. pose proof (Ztrunc_le _ _ H). unfold between. lia. Qed.
Lemma u8_int c : (c <= 255)%N -> Z.to_N (between 0 255 (Ztrunc (real c))) = c.
Proof. intros H. unfold real. rewrite Ztrunc_IZR. unfold between. lia. Qed.
Lemma u8_close t v q : 0 <= v < 256 -> Rabs (v - q) <= t -> whole_byte t (Z.to_N (between 0 255 (Ztrunc v))) q.
Proof.
  intros [V W] E. rewrite Ztrunc_floor by exact V. assert (L : (0 <= Zfloor v)%Z) by (apply Zfloor_lub; exact V).
  assert (U : (Zfloor v <= 255)%Z). { apply Z.lt_succ_r, lt_IZR. eapply Rle_lt_trans; [apply Zfloor_lb|exact W]. }
  assert (B : Z.of_N (Z.to_N (between 0 255 (Zfloor v))) = Zfloor v) by (unfold between; lia). unfold whole_byte, real. rewrite B.
  pose proof (Zfloor_lb v). pose proof (Zfloor_ub v). apply Rabs_le_inv in E. lra.
Qed.

(** ** Lighter *)
Lemma lighter_has x u c : has x u -> 0 <= u <= 1 -> (c <= 255)%N -> lighter_byte x c = Z.to_N (between 0 255 (Ztrunc (rnd (real c + rnd ((255 - real c) * u))))).
Proof.
  intros X U C. pose proof (byte_real c C) as R. apply as_u8_has.
  assert (M : has (minus32 (num32 255) (byte32 c)) (255 - real c)).
  { pose proof (has_minus _ _ _ _ (has_num 255 ltac:(lia)) (has_byte c C)) as M. cbv beta in M. assert (E : rnd (255 - real c) = 255 - real c) by (unfold real; rewrite <- minus_IZR; apply rnd_int; lia). rewrite E in M. apply M. apply Rabs_le. lra. }
  assert (P : 0 <= (255 - real c) * u <= 255) by nra.
  pose proof (has_times _ _ _ _ M X ltac:(apply Rabs_le; lra)) as T. destruct (int_le 0 ((255 - real c) * u) ltac:(lia)) as [_ A]. destruct (int_le 255 ((255 - real c) * u) ltac:(lia)) as [B _].
  apply has_plus; [now apply has_byte|exact T|]. specialize (A ltac:(lra)). specialize (B ltac:(lra)). apply Rabs_le. lra.
Qed.
Lemma lighter_up x u c : has x u -> 0 <= u <= 1 -> (c <= 255)%N -> (c <= lighter_byte x c <= 255)%N.
Proof.
  intros X U C. split; [|apply as_u8_le]. rewrite (lighter_has x u c X U C). rewrite <- (u8_int c C) at 1. apply u8_mono. pose proof (byte_real c C) as R.
  destruct (int_le 0 ((255 - real c) * u) ltac:(lia)) as [_ A]. specialize (A ltac:(nra)). destruct (int_le (Z.of_N c) (real c + rnd ((255 - real c) * u)) ltac:(lia)) as [_ B]. apply B. unfold real. fold (real c). lra.
Qed.
Lemma lighter_close x u c : has x u -> 0 <= u <= 1 -> (c <= 255)%N -> whole_byte (1 / 65536) (lighter_byte x c) (real c + (255 - real c) * u).
Proof.
  intros X U C. rewrite (lighter_has x u c X U C). pose proof (byte_real c C) as R. set (q := (255 - real c) * u). assert (P : 0 <= q <= 255) by (unfold q; nra). assert (Q : real c + q <= 255) by (unfold q; nra).
  pose proof (err8 q ltac:(apply Rabs_le; lra)) as E1. apply Rabs_le_inv in E1. destruct (int_le 0 q ltac:(lia)) as [_ A]. specialize (A ltac:(lra)).
  pose proof (err8 (real c + rnd q) ltac:(apply Rabs_le; lra)) as E2. apply Rabs_le_inv in E2. destruct (int_le 0 (real c + rnd q) ltac:(lia)) as [_ B]. specialize (B ltac:(lra)).
  apply u8_close; [lra|]. apply Rabs_le. lra.
Qed.
Lemma lighter_mono x y u v c : has x u -> has y v -> 0 <= u -> u <= v -> v <= 1 -> (c <= 255)%N -> (lighter_byte x c <= lighter_byte y c)%N.
Proof.
  intros X Y U V W C. rewrite (lighter_has x u c X), (lighter_has y v c Y) by (assumption || lra). pose proof (byte_real c C). apply u8_mono, rnd_le, Rplus_le_compat_l, rnd_le, Rmult_le_compat_l; lra.
Qed.
Lemma lighter_end x c : (c <= 255)%N -> (has x 0 -> lighter_byte x c = c) /\ (has x 1 -> lighter_byte x c = 255%N).
Proof.
  intros C. split; intros X.
  - rewrite (lighter_has x 0 c X) by (assumption || lra). rewrite Rmult_0_r, (rnd_int 0), Rplus_0_r by lia. unfold real at 1. rewrite rnd_int by lia. now apply u8_int.
  - rewrite (lighter_has x 1 c X) by (assumption || lra). rewrite Rmult_1_r. assert (E : rnd (255 - real c) = 255 - real c) by (unfold real; rewrite <- minus_IZR; apply rnd_int; lia). rewrite E.
    replace (real c + (255 - real c)) with 255 by ring. rewrite (rnd_int 255) by lia. now rewrite Ztrunc_IZR.
Qed.

(** ** Darker *)
Lemma one_minus x u : has x u -> 0 <= u <= 1 -> has (minus32 (num32 1) x) (rnd (1 - u)) /\ 0 <= rnd (1 - u) <= 1 /\ Rabs (rnd (1 - u) - (1 - u)) <= 1 / 33554432.
Proof.
  intros X U. split; [apply has_minus; [apply (has_num 1); lia|exact X|apply Rabs_le; lra]|]. split; [|apply err0, Rabs_le; lra].
  split; [apply (proj2 (int_le 0 (1 - u) ltac:(lia))); lra|apply (proj1 (int_le 1 (1 - u) ltac:(lia))); lra].
Qed.
Lemma darker_has x u c : has x u -> 0 <= u <= 1 -> (c <= 255)%N -> darker_byte x c = Z.to_N (between 0 255 (Ztrunc (rnd (real c * rnd (1 - u))))).
Proof.
  intros X U C. destruct (one_minus x u X U) as (M & R & _). apply as_u8_has. apply has_times; [now apply has_byte|exact M|]. pose proof (byte_real c C). apply Rabs_le. nra.
Qed.
Lemma darker_down x u c : has x u -> 0 <= u <= 1 -> (c <= 255)%N -> (darker_byte x c <= c)%N.
Proof.
  intros X U C. rewrite (darker_has x u c X U C). rewrite <- (u8_int c C) at 2. apply u8_mono. destruct (one_minus x u X U) as (_ & R & _). pose proof (byte_real c C).
  apply (proj1 (int_le (Z.of_N c) (real c * rnd (1 - u)) ltac:(lia))). fold (real c). nra.
Qed.
Lemma scaled_close k w v c : (c <= 255)%N -> 0 <= w <= 1 -> 0 <= k <= 1 -> Rabs (w - k) <= 1 / 33554432 -> v = rnd (real c * w) -> 0 <= v <= 255 /\ Rabs (v - real c * k) <= 1 / 65536.
Proof.
  intros C W K E ->. pose proof (byte_real c C) as R. assert (P : 0 <= real c * w <= 255) by nra. pose proof (err8 (real c * w) ltac:(apply Rabs_le; lra)) as E1. apply Rabs_le_inv in E1. apply Rabs_le_inv in E.
  split; [split; [apply (proj2 (int_le 0 (real c * w) ltac:(lia))); lra|apply (proj1 (int_le 255 (real c * w) ltac:(lia))); lra]|].
  assert (D : - (1 / 131072) <= real c * w - real c * k <= 1 / 131072) by (split; nra). apply Rabs_le. lra.
Qed.
Lemma darker_close x u c : has x u -> 0 <= u <= 1 -> (c <= 255)%N -> whole_byte (1 / 65536) (darker_byte x c) (real c * (1 - u)).
Proof.
  intros X U C. rewrite (darker_has x u c X U C). destruct (one_minus x u X U) as (_ & R & E).
  destruct (scaled_close (1 - u) (rnd (1 - u)) _ c C R ltac:(lra) E eq_refl) as [A B]. apply u8_close; [lra|exact B].
Qed.
Lemma darker_mono x y u v c : has x u -> has y v -> 0 <= u -> u <= v -> v <= 1 -> (c <= 255)%N -> (darker_byte y c <= darker_byte x c)%N.
Proof.
  intros X Y U V W C. rewrite (darker_has x u c X), (darker_has y v c Y) by (assumption || lra). pose proof (byte_real c C). apply u8_mono, rnd_le, Rmult_le_compat_l; [lra|]. apply rnd_le. lra.
Qed.
Lemma darker_end x c : (c <= 255)%N -> (has x 0 -> darker_byte x c = c) /\ (has x 1 -> darker_byte x c = 0%N).
Proof.
  intros C. split; intros X.
  - rewrite (darker_has x 0 c X) by (assumption || lra). rewrite Rminus_0_r, (rnd_int 1), Rmult_1_r by lia. unfold real at 1. rewrite rnd_int by lia. now apply u8_int.
  - rewrite (darker_has x 1 c X) by (assumption || lra). replace (1 - 1) with 0 by ring. rewrite (rnd_int 0), Rmult_0_r, (rnd_int 0), Ztrunc_IZR by lia. reflexivity.
Qed.

(** ** Opacity *)
Lemma opacity_has x u : has x u -> 0 <= u <= 1 -> as_u8 (times32 x (num32 255)) = Z.to_N (between 0 255 (Ztrunc (rnd (u * 255)))).
Proof. intros X U. apply as_u8_has, has_times; [exact X|apply has_num; lia|apply Rabs_le; lra]. Qed.
Lemma opacity_close x u : has x u -> 0 <= u <= 1 -> whole_byte (1 / 65536) (as_u8 (times32 x (num32 255))) (u * 255).
Proof.
  intros X U. rewrite (opacity_has x u X U). pose proof (err8 (u * 255) ltac:(apply Rabs_le; lra)) as E. apply Rabs_le_inv in E. pose proof (proj2 (int_le 0 (u * 255) ltac:(lia)) ltac:(lra)).
  pose proof (proj1 (int_le 255 (u * 255) ltac:(lia)) ltac:(lra)). apply u8_close; [lra|]. apply Rabs_le. lra.
Qed.

(** ** Mixed *)
Lemma mix_has x u c d : has x u -> 0 <= u <= 1 -> (c <= 255)%N -> (d <= 255)%N ->
  mix_byte x c d = Z.to_N (between 0 255 (Ztrunc (rnd (rnd (real c * rnd (1 - u)) + rnd (real d * u))))).
Proof.
  intros X U C D. destruct (one_minus x u X U) as (M & R & E). pose proof (byte_real c C) as RC. pose proof (byte_real d D) as RD. apply as_u8_has.
  destruct (scaled_close (1 - u) (rnd (1 - u)) _ c C R ltac:(lra) E eq_refl) as [A _]. destruct (scaled_close u u _ d D U U ltac:(rewrite Rminus_diag_eq, Rabs_R0; lra) eq_refl) as [B _].
  apply has_plus; [apply has_times; [now apply has_byte|exact M|apply Rabs_le; nra]|apply has_times; [now apply has_byte|exact X|apply Rabs_le; nra]|apply Rabs_le; lra].
Qed.
Lemma mix_close x u c d : has x u -> 0 <= u <= 1 -> (c <= 255)%N -> (d <= 255)%N -> whole_byte (1 / 16384) (mix_byte x c d) (real c * (1 - u) + real d * u).
Proof.
  intros X U C D. rewrite (mix_has x u c d X U C D). destruct (one_minus x u X U) as (M & R & E). pose proof (byte_real c C) as RC. pose proof (byte_real d D) as RD.
  destruct (scaled_close (1 - u) (rnd (1 - u)) _ c C R ltac:(lra) E eq_refl) as [A E1]. destruct (scaled_close u u _ d D U U ltac:(rewrite Rminus_diag_eq, Rabs_R0; lra) eq_refl) as [B E2].
  apply Rabs_le_inv in E1, E2. assert (Q : 0 <= real c * (1 - u) + real d * u <= 255) by nra. set (a := rnd (real c * rnd (1 - u))) in *. set (b := rnd (real d * u)) in *.
  pose proof (err8 (a + b) ltac:(apply Rabs_le; lra)) as E3. apply Rabs_le_inv in E3. pose proof (proj2 (int_le 0 (a + b) ltac:(lia)) ltac:(lra)) as L. cbv beta in L. apply u8_close; [lra|]. apply Rabs_le. lra.
Qed.
Lemma whole_between t e q (m n : N) : t < 1 -> whole_byte t e q -> real m <= q <= real n -> (m <= e + 1 /\ e <= n)%N.
Proof.
  intros T [A B] [L H]. unfold real in *. split.
  - assert (G : (Z.of_N m < Z.of_N e + 2)%Z) by (apply lt_IZR; rewrite plus_IZR; lra). lia.
  - assert (G : (Z.of_N e < Z.of_N n + 1)%Z) by (apply lt_IZR; rewrite plus_IZR; lra). lia.
Qed.
Lemma mix_range x u c d : has x u -> 0 <= u <= 1 -> (c <= 255)%N -> (d <= 255)%N -> (N.min c d <= mix_byte x c d + 1 /\ mix_byte x c d <= N.max c d)%N.
Proof.
  intros X U C D. apply (whole_between (1 / 16384) _ (real c * (1 - u) + real d * u)); [lra|now apply mix_close|]. unfold real. destruct (N.le_ge_cases c d) as [L|L].
  - rewrite N.min_l, N.max_r by exact L. assert (G : IZR (Z.of_N c) <= IZR (Z.of_N d)) by (apply IZR_le; lia). nra.
  - rewrite N.min_r, N.max_l by exact L. assert (G : IZR (Z.of_N d) <= IZR (Z.of_N c)) by (apply IZR_le; lia). nra.
Qed.
Lemma mix_end x c d : (c <= 255)%N -> (d <= 255)%N -> (has x 0 -> mix_byte x c d = c) /\ (has x 1 -> mix_byte x c d = d).
Proof.
  intros C D. assert (I : forall e, (e <= 255)%N -> rnd (real e) = real e) by (intros e H; apply rnd_int; lia). split; intros X.
  - rewrite (mix_has x 0 c d X) by (assumption || lra). rewrite Rminus_0_r, (rnd_int 1), Rmult_1_r, Rmult_0_r, (rnd_int 0), I, Rplus_0_r, I by (assumption || lia). now apply u8_int.
  - rewrite (mix_has x 1 c d X) by (assumption || lra). replace (1 - 1) with 0 by ring. rewrite (rnd_int 0), Rmult_0_r, Rmult_1_r, (rnd_int 0), I, Rplus_0_l, I by (assumption || lia). now apply u8_int.
Qed.

(** ** Gray *)
Lemma weight_has z : (0 <= z <= 1000)%Z -> has (over32 (num32 z) (num32 1000)) (rnd (IZR z / 1000)) /\ 0 <= rnd (IZR z / 1000) <= 1 /\ Rabs (rnd (IZR z / 1000) - IZR z / 1000) <= 1 / 33554432.
Proof.
  intros H. assert (R : 0 <= IZR z <= 1000) by (split; apply IZR_le; lia). split; [apply has_over; [apply has_num; lia|apply (has_num 1000); lia|lra|apply Rabs_le; lra]|]. split; [|apply err0, Rabs_le; lra].
  split; [apply (proj2 (int_le 0 (IZR z / 1000) ltac:(lia))); lra|apply (proj1 (int_le 1 (IZR z / 1000) ltac:(lia))); lra].
Qed.
Lemma gray_close r g b : (r <= 255)%N -> (g <= 255)%N -> (b <= 255)%N -> whole_byte (1 / 10000) (gray_byte r g b) ((299 * real r + 587 * real g + 114 * real b) / 1000).
Proof.
  intros R G B. destruct (weight_has 299 ltac:(lia)) as (H1 & I1 & E1). destruct (weight_has 587 ltac:(lia)) as (H2 & I2 & E2). destruct (weight_has 114 ltac:(lia)) as (H3 & I3 & E3).
  pose proof (byte_real r R) as Rr. pose proof (byte_real g G) as Rg. pose proof (byte_real b B) as Rb.
  destruct (scaled_close (299 / 1000) _ _ r R I1 ltac:(lra) E1 eq_refl) as [A1 D1]. destruct (scaled_close (587 / 1000) _ _ g G I2 ltac:(lra) E2 eq_refl) as [A2 D2]. destruct (scaled_close (114 / 1000) _ _ b B I3 ltac:(lra) E3 eq_refl) as [A3 D3].
  rewrite Rmult_comm in A1, D1 at 1. rewrite Rmult_comm in A2, D2 at 1. rewrite Rmult_comm in A3, D3 at 1.
  assert (T1 : has (times32 w_red (byte32 r)) (rnd (rnd (299 / 1000) * real r))) by (apply has_times; [exact H1|now apply has_byte|apply Rabs_le; nra]).
  assert (T2 : has (times32 w_green (byte32 g)) (rnd (rnd (587 / 1000) * real g))) by (apply has_times; [exact H2|now apply has_byte|apply Rabs_le; nra]).
  assert (T3 : has (times32 w_blue (byte32 b)) (rnd (rnd (114 / 1000) * real b))) by (apply has_times; [exact H3|now apply has_byte|apply Rabs_le; nra]).
  set (x := rnd (rnd (299 / 1000) * real r)) in *. set (y := rnd (rnd (587 / 1000) * real g)) in *. set (z := rnd (rnd (114 / 1000) * real b)) in *. clearbody x y z. apply Rabs_le_inv in D1, D2, D3.
  pose proof (has_plus _ _ _ _ T1 T2 ltac:(apply Rabs_le; lra)) as S1. pose proof (err8 (x + y) ltac:(apply Rabs_le; lra)) as F1. apply Rabs_le_inv in F1. pose proof (proj2 (int_le 0 (x + y) ltac:(lia)) ltac:(lra)) as L1. cbv beta in L1.
  pose proof (has_plus _ _ _ _ S1 T3 ltac:(apply Rabs_le; lra)) as S2. pose proof (err8 (rnd (x + y) + z) ltac:(apply Rabs_le; lra)) as F2. apply Rabs_le_inv in F2. pose proof (proj2 (int_le 0 (rnd (x + y) + z) ltac:(lia)) ltac:(lra)) as L2. cbv beta in L2.
  unfold gray_byte. rewrite (as_u8_has _ _ S2). apply u8_close; [lra|]. apply Rabs_le. lra.
Qed.

(** ** Colours *)
Lemma bytes_of c : bytes c -> (cr c <= 255)%N /\ (cg c <= 255)%N /\ (cb c <= 255)%N /\ (ca c <= 255)%N.
Proof. intros H. unfold bytes in H. rewrite !Forall_cons_iff in H. tauto. Qed.
Lemma each_of (P : N -> N -> Prop) c d : P (cr c) (cr d) -> P (cg c) (cg d) -> P (cb c) (cb d) -> each P c d.
Proof. intros. unfold each, channels. auto. Qed.
Lemma lighter_colour x c : is_finite x = true -> bytes c -> bytes (lighter x c) /\ ca (lighter x c) = ca c
  /\ each (fun old new => (old <= new)%N /\ whole_byte (1 / 65536) new (real old + (255 - real old) * unit_of (B2R x))) c (lighter x c).
Proof.
  intros F B. destruct (bytes_of c B) as (R & G & L & A). pose proof (has_unit x F) as H. pose proof (unit_range (B2R x)) as U. split; [repeat constructor; cbn; (apply as_u8_le || exact A)|]. split; [reflexivity|].
  apply each_of; cbn [lighter cr cg cb]; (split; [now apply (lighter_up _ _ _ H U)|now apply lighter_close]).
Qed.
Lemma lighter_grows x y c : is_finite x = true -> is_finite y = true -> bytes c -> B2R x <= B2R y -> each N.le (lighter x c) (lighter y c).
Proof.
  intros F F2 B L. destruct (bytes_of c B) as (R & G & Bl & _). pose proof (has_unit x F) as H. pose proof (has_unit y F2) as H2. pose proof (unit_mono _ _ L). pose proof (unit_range (B2R x)). pose proof (unit_range (B2R y)).
  apply each_of; cbn [lighter cr cg cb]; apply (lighter_mono _ _ _ _ _ H H2); (assumption || lra).
Qed.
Lemma lighter_ends x c : is_finite x = true -> bytes c -> (B2R x <= 0 -> lighter x c = c) /\ (1 <= B2R x -> lighter x c = Cv 255 255 255 (ca c)).
Proof.
  intros F B. destruct (bytes_of c B) as (R & G & L & _). pose proof (has_unit x F) as H. split; intros V.
  - rewrite (unit_low _ V) in H. unfold lighter. rewrite !(fun k K => proj1 (lighter_end _ k K) H) by assumption. now destruct c.
  - rewrite (unit_high _ V) in H. unfold lighter. now rewrite !(fun k K => proj2 (lighter_end _ k K) H) by assumption.
Qed.
Lemma darker_colour x c : is_finite x = true -> bytes c -> bytes (darker x c) /\ ca (darker x c) = ca c
  /\ each (fun old new => (new <= old)%N /\ whole_byte (1 / 65536) new (real old * (1 - unit_of (B2R x)))) c (darker x c).
Proof.
  intros F B. destruct (bytes_of c B) as (R & G & L & A). pose proof (has_unit x F) as H. pose proof (unit_range (B2R x)) as U. split; [repeat constructor; cbn; (apply as_u8_le || exact A)|]. split; [reflexivity|].
  apply each_of; cbn [darker cr cg cb]; (split; [now apply (darker_down _ _ _ H U)|now apply darker_close]).
Qed.
Lemma darker_grows x y c : is_finite x = true -> is_finite y = true -> bytes c -> B2R x <= B2R y -> each N.le (darker y c) (darker x c).
Proof.
  intros F F2 B L. destruct (bytes_of c B) as (R & G & Bl & _). pose proof (has_unit x F) as H. pose proof (has_unit y F2) as H2. pose proof (unit_mono _ _ L). pose proof (unit_range (B2R x)). pose proof (unit_range (B2R y)).
  apply each_of; cbn [darker cr cg cb]; apply (darker_mono _ _ _ _ _ H H2); (assumption || lra).
Qed.
Lemma darker_ends x c : is_finite x = true -> bytes c -> (B2R x <= 0 -> darker x c = c) /\ (1 <= B2R x -> darker x c = Cv 0 0 0 (ca c)).
Proof.
  intros F B. destruct (bytes_of c B) as (R & G & L & _). pose proof (has_unit x F) as H. split; intros V.
  - rewrite (unit_low _ V) in H. unfold darker. rewrite !(fun k K => proj1 (darker_end _ k K) H) by assumption. now destruct c.
  - rewrite (unit_high _ V) in H. unfold darker. now rewrite !(fun k K => proj2 (darker_end _ k K) H) by assumption.
Qed.
Lemma opacity_colour x c : is_finite x = true -> each eq c (opacity x c) /\ (ca (opacity x c) <= 255)%N /\ whole_byte (1 / 65536) (ca (opacity x c)) (unit_of (B2R x) * 255).
Proof. intros F. split; [now apply each_of|]. split; [apply as_u8_le|]. apply opacity_close; [now apply has_unit|apply unit_range]. Qed.
Definition alpha_right (p : N) : bool := N.eqb (ca (transparent p (Cv 0 0 0 0))) ((100 - N.min p 100) * 255 / 100).
Lemma alphas : forallb alpha_right (List.map N.of_nat (List.seq 0 256)) = true.
Proof. now vm_compute. Qed.
Lemma transparent_colour p c : (p <= 255)%N -> each eq c (transparent p c) /\ ca (transparent p c) = ((100 - N.min p 100) * 255 / 100)%N.
Proof.
  intros H. split; [now apply each_of|]. pose proof alphas as A. rewrite forallb_forall in A. apply N.eqb_eq. apply (A p). rewrite in_map_iff. exists (N.to_nat p). split; [apply N2Nat.id|]. rewrite in_seq. lia.
Qed.
Lemma mix_colour c d x : is_finite x = true -> bytes c -> bytes d -> bytes (mix c d x)
  /\ Forall2 (fun cd new => (N.min (fst cd) (snd cd) <= new + 1 /\ new <= N.max (fst cd) (snd cd))%N /\ whole_byte (1 / 16384) new (real (fst cd) * (1 - unit_of (B2R x)) + real (snd cd) * unit_of (B2R x)))
       [(cr c, cr d); (cg c, cg d); (cb c, cb d); (ca c, ca d)] [cr (mix c d x); cg (mix c d x); cb (mix c d x); ca (mix c d x)].
Proof.
  intros F B B2. destruct (bytes_of c B) as (R & G & L & A). destruct (bytes_of d B2) as (R2 & G2 & L2 & A2). pose proof (has_unit x F) as H. pose proof (unit_range (B2R x)) as U. split; [repeat constructor; cbn; apply as_u8_le|].
  repeat (constructor; [cbn [fst snd mix cr cg cb ca]; split; [now apply (mix_range _ _ _ _ H U)|now apply mix_close]|]). constructor.
Qed.
Lemma mix_ends c d x : is_finite x = true -> bytes c -> bytes d -> (B2R x <= 0 -> mix c d x = c) /\ (1 <= B2R x -> mix c d x = d).
Proof.
  intros F B B2. destruct (bytes_of c B) as (R & G & L & A). destruct (bytes_of d B2) as (R2 & G2 & L2 & A2). pose proof (has_unit x F) as H. split; intros V.
  - rewrite (unit_low _ V) in H. unfold mix. rewrite !(fun k m K M => proj1 (mix_end _ k m K M) H) by assumption. now destruct c.
  - rewrite (unit_high _ V) in H. unfold mix. rewrite !(fun k m K M => proj2 (mix_end _ k m K M) H) by assumption. now destruct d.
Qed.
Lemma gray_colour c : bytes c -> bytes (grayscale c) /\ gray (grayscale c) /\ ca (grayscale c) = ca c
  /\ whole_byte (1 / 10000) (cr (grayscale c)) ((299 * real (cr c) + 587 * real (cg c) + 114 * real (cb c)) / 1000).
Proof.
  intros B. destruct (bytes_of c B) as (R & G & L & A). split; [repeat constructor; cbn; (apply as_u8_le || exact A)|]. split; [now split|]. split; [reflexivity|now apply gray_close].
Qed.
Lemma gray_again c : bytes c -> gray c -> (cr (grayscale c) <= cr c <= cr (grayscale c) + 1)%N.
Proof.
  intros B [E1 E2]. destruct (bytes_of c B) as (R & G & L & _). destruct (gray_colour c B) as (_ & _ & _ & W). rewrite <- E2, <- E1 in W.
  assert (Q : real (cr c) <= (299 * real (cr c) + 587 * real (cr c) + 114 * real (cr c)) / 1000 <= real (cr c)) by lra. assert (T : 1 / 10000 < 1) by lra.
  pose proof (whole_between _ _ _ (cr c) (cr c) T W Q). lia.
Qed.
Lemma nan_colour c : lighter B754_nan c = Cv 0 0 0 (ca c) /\ darker B754_nan c = Cv 0 0 0 (ca c) /\ ca (opacity B754_nan c) = 0%N.
Proof.
  assert (H : forall x, times32 x B754_nan = B754_nan /\ plus32 x B754_nan = B754_nan) by (intros x; unfold times32, plus32, fmul, fadd; split; destruct x; reflexivity).
  assert (N : unit32 B754_nan = B754_nan) by reflexivity. assert (L : forall k, lighter_byte B754_nan k = 0%N) by (intros k; unfold lighter_byte; now rewrite (proj1 (H _)), (proj2 (H _))).
  assert (D : forall k, darker_byte B754_nan k = 0%N). { intros k. unfold darker_byte. assert (M : minus32 (num32 1) B754_nan = B754_nan) by (vm_compute; reflexivity). now rewrite M, (proj1 (H _)). }
  unfold lighter, darker. rewrite N, !L, !D. repeat split.
Qed.
